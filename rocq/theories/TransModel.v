(** Model of the points and transform matrices: VWPoint3D.cpp, VWTransformMatrix.cpp and the conversion of matrices in
    Utility.cpp.

    Simplified: doubles are real numbers, so nothing is rounded and nothing overflows.  A function that changes its object
    gives the new one.  The points with two coordinates are pairs.  IsOnPlane, IsOnTriangle, the inscribed circle and the
    functions that only copy are left out. *)
From Coq Require Import List Reals Bool.
Import ListNotations.
Local Open Scope R_scope.

(** The comparison [a < b] as a value. *)
Definition ltb (a b : R) : bool := if Rlt_dec a b then true else false.

(** [Abs] (BasicMath.X.h:40). *)
Definition abs (x : R) : R := if Rle_dec 0 x then x else - x.

(** ** Points (VWPoint3D.cpp) *)

Record pt := Pt { px : R; py : R; pz : R }.

(** [operator+], [operator-], [operator*] with a number (108-121). *)
Definition padd (a b : pt) : pt := Pt (px a + px b) (py a + py b) (pz a + pz b).
Definition psub (a b : pt) : pt := Pt (px a - px b) (py a - py b) (pz a - pz b).
Definition pscale (a : pt) (s : R) : pt := Pt (px a * s) (py a * s) (pz a * s).

(** [Cross] (302-307) and [DotProduct] (310-313). *)
Definition cross (a b : pt) : pt :=
  Pt (py a * pz b - pz a * py b) (pz a * px b - px a * pz b) (px a * py b - py a * px b).
Definition dot (a b : pt) : R := px a * px b + py a * py b + pz a * pz b.

(** [Magnitude] (246-249) and [MagnitudeSquared] (252-255). *)
Definition magnitude (a : pt) : R := sqrt (px a * px a + py a * py a + pz a * pz a).
Definition magnitude2 (a : pt) : R := px a * px a + py a * py a + pz a * pz a.

(** [Equal] (258-264). *)
Definition point_equal (a b : pt) (eps : R) : bool :=
  let xx := px a - px b in let yy := py a - py b in let zz := pz a - pz b in
  ltb (xx * xx + yy * yy + zz * zz) (eps * eps).

(** [sEpsilon] (14). *)
Definition s_epsilon : R := / 10000000.

(** [Normalize] (316-326). *)
Definition normalize (a : pt) : pt :=
  let len := magnitude a in
  if ltb 0 len then Pt (px a / len) (py a / len) (pz a / len) else a.

(** [DistanceSquaredTo] (296-299). *)
Definition distance2 (a b : pt) : R := magnitude2 (psub a b).

(** [TriArea] of points (446-454) and of numbers (456-479). *)
Definition tri_area (p1 p2 p3 : pt) : R := magnitude (cross (psub p2 p1) (psub p3 p1)) / 2.
Definition tri_area_signed (p1 p2 p3 : pt) : R :=
  let c := cross (psub p2 p1) (psub p3 p1) in
  let sign := if ltb (pz c) 0 then -1 else 1 in
  sign * sqrt (px c * px c + py c * py c + pz c * pz c) / 2.

(** [GetTriCircumCircle] (481-512): the centre and the squared radius. *)
Definition circum_circle (p0 p1 p2 : pt) : option (pt * R) :=
  let d0 := dot (psub p2 p0) (psub p1 p0) in
  let d1 := dot (psub p2 p1) (psub p0 p1) in
  let d2 := dot (psub p0 p2) (psub p1 p2) in
  let c0 := d1 * d2 in
  let c1 := d2 * d0 in
  let c2 := d0 * d1 in
  let sumc := c2 + c1 + c0 in
  if ltb (abs (0 - sumc)) s_epsilon then None
  else
    let cs := / 2 / sumc in
    let f0 := (c2 + c1) * cs in
    let f1 := (c2 + c0) * cs in
    let f2 := (c0 + c1) * cs in
    let c := Pt (f0 * px p0 + f1 * px p1 + f2 * px p2)
                (f0 * py p0 + f1 * py p1 + f2 * py p2)
                (f0 * pz p0 + f1 * pz p1 + f2 * pz p2) in
    Some (c, distance2 c p0).

(** [GetTriLongestEdge] (602-624). *)
Definition longest_edge (p0 p1 p2 : pt) : pt * pt :=
  let d0 := distance2 p0 p1 in
  let d1 := distance2 p1 p2 in
  let d2 := distance2 p2 p0 in
  if ltb d1 d0 then if ltb d2 d0 then (p0, p1) else (p2, p0)
  else if ltb d2 d1 then (p1, p2) else (p2, p0).

(** ** Matrices (VWTransformMatrix.cpp) *)

(** [fMatrix.mat]: three rows and the offset. *)
Record mat := Mat {
  m00 : R; m01 : R; m02 : R;
  m10 : R; m11 : R; m12 : R;
  m20 : R; m21 : R; m22 : R;
  m30 : R; m31 : R; m32 : R }.

(** [SetIdentity] (70-76). *)
Definition identity : mat := Mat 1 0 0  0 1 0  0 0 1  0 0 0.

(** [GetUVector], [GetVVector], [GetWVector], [GetOffset] (234-282). *)
Definition u_of (m : mat) : pt := Pt (m00 m) (m01 m) (m02 m).
Definition v_of (m : mat) : pt := Pt (m10 m) (m11 m) (m12 m).
Definition w_of (m : mat) : pt := Pt (m20 m) (m21 m) (m22 m).
Definition offset_of (m : mat) : pt := Pt (m30 m) (m31 m) (m32 m).

(** [SetMatrix] with vectors and an offset (204-218). *)
Definition set_matrix (u v w o : pt) (transpose : bool) : mat :=
  if transpose then Mat (px u) (px v) (px w)  (py u) (py v) (py w)  (pz u) (pz v) (pz w)  (px o) (py o) (pz o)
  else Mat (px u) (py u) (pz u)  (px v) (py v) (pz v)  (px w) (py w) (pz w)  (px o) (py o) (pz o).

(** [SetMatrix] with an offset (220-224) and with factors (226-232). *)
Definition translation (o : pt) : mat := Mat 1 0 0  0 1 0  0 0 1  (px o) (py o) (pz o).
Definition scaling (x y z : R) : mat := Mat x 0 0  0 y 0  0 0 z  0 0 0.

(** [SetUVector], [SetVVector], [SetWVector] (244-247, 259-262, 274-277). *)
Definition set_u (m : mat) (p : pt) : mat := set_matrix p (v_of m) (w_of m) (offset_of m) false.
Definition set_v (m : mat) (p : pt) : mat := set_matrix (u_of m) p (w_of m) (offset_of m) false.
Definition set_w (m : mat) (p : pt) : mat := set_matrix (u_of m) (v_of m) p (offset_of m) false.

(** [IsEqual] (89-98), [IsIdentity] (78-87): the numbers pairwise. *)
Definition entries (m : mat) : list R :=
  [m00 m; m01 m; m02 m; m10 m; m11 m; m12 m; m20 m; m21 m; m22 m; m30 m; m31 m; m32 m].
Definition is_equal (a b : mat) : bool :=
  forallb (fun p => ltb (abs (fst p - snd p)) (/ 10000)) (combine (entries a) (entries b)).
Definition is_identity (a : mat) : bool := is_equal a identity.

Definition radians (deg : R) : R := deg * (PI / 180).

(** [SetRotation] with an axis (100-152). *)
Definition set_rotation (deg : R) (axis : pt) : mat :=
  let ax := normalize axis in
  let ang := radians deg in
  let sn := sin (ang * / 2) in
  let a := px ax * sn in
  let m := py ax * sn in
  let n := pz ax * sn in
  let r := cos (ang * / 2) in
  Mat (a * a - m * m - n * n + r * r) (2 * (a * m - n * r)) (2 * (a * n + m * r))
      (2 * (a * m + n * r)) (m * m - a * a - n * n + r * r) (2 * (n * m - a * r))
      (2 * (a * n - m * r)) (2 * (n * m + a * r)) (n * n - m * m - a * a + r * r)
      0 0 0.

(** [SetRotation] with a new first vector (154-172). *)
Definition set_rotation_u (old : mat) (new_u : pt) : mat :=
  let u := normalize new_u in
  let m := set_u old u in
  if point_equal u (Pt 0 0 1) s_epsilon || point_equal u (Pt 0 0 (-1)) s_epsilon then
    let m1 := set_w m (normalize (cross u (v_of m))) in
    set_v m1 (normalize (cross (w_of m1) u))
  else
    let m1 := set_v m (normalize (cross (Pt 0 0 1) u)) in
    set_w m1 (cross u (v_of m1)).

(** The sums of [Invert] (300-315). *)
Definition add_pos (t : R) : R := if Rle_dec 0 t then t else 0.
Definition add_neg (t : R) : R := if Rle_dec 0 t then 0 else t.
Definition terms (m : mat) : list R :=
  [m00 m * m11 m * m22 m; m01 m * m12 m * m20 m; m02 m * m10 m * m21 m;
   - (m20 m * m11 m * m02 m); - (m21 m * m12 m * m00 m); - (m22 m * m10 m * m01 m)].
Definition sum (l : list R) : R := fold_right Rplus 0 l.
Definition det_of (m : mat) : R := sum (map add_pos (terms m)) + sum (map add_neg (terms m)).
Definition mag_of (m : mat) : R := sum (map add_pos (terms m)) - sum (map add_neg (terms m)).

(** What is done when the matrix counts as singular (319-321, 327-329). *)
Definition bye_bye (m : mat) : mat :=
  Mat (m00 m) (m10 m) (m20 m)  (m01 m) (m11 m) (m21 m)  (m02 m) (m12 m) (m22 m)  (m30 m) (m31 m) (m32 m).

(** The inverse (332-344). *)
Definition inverse (m : mat) (det : R) : mat :=
  let d00 :=   (m11 m * m22 m - m21 m * m12 m) / det in
  let d01 := - ((m01 m * m22 m - m21 m * m02 m) / det) in
  let d02 :=   (m01 m * m12 m - m11 m * m02 m) / det in
  let d10 := - ((m10 m * m22 m - m20 m * m12 m) / det) in
  let d11 :=   (m00 m * m22 m - m20 m * m02 m) / det in
  let d12 := - ((m00 m * m12 m - m10 m * m02 m) / det) in
  let d20 :=   (m10 m * m21 m - m20 m * m11 m) / det in
  let d21 := - ((m00 m * m21 m - m20 m * m01 m) / det) in
  let d22 :=   (m00 m * m11 m - m10 m * m01 m) / det in
  Mat d00 d01 d02  d10 d11 d12  d20 d21 d22
      (- (m30 m * d00 + m31 m * d10 + m32 m * d20))
      (- (m30 m * d01 + m31 m * d11 + m32 m * d21))
      (- (m30 m * d02 + m31 m * d12 + m32 m * d22)).

(** [Invert] (298-349). *)
Definition tiny : R := / 100000000.
Definition invert (m : mat) : mat :=
  let det := det_of m in
  let mag := mag_of m in
  if ltb (abs mag) tiny then bye_bye m
  else if ltb (abs (det / mag)) tiny then bye_bye m
  else inverse m det.

(** [IsFlipped] (363-370), [FlipMatrix] (372-379). *)
Definition is_flipped (m : mat) : bool := ltb (dot (u_of m) (cross (v_of m) (w_of m))) (/ 10000).
Definition flip (m : mat) : mat := set_v (set_u m (v_of m)) (u_of m).

(** [TranslateAfter] (381-391), [TranslateBefore] (393-403). *)
Definition translate_after (m : mat) (o : pt) : mat :=
  set_matrix (u_of m) (v_of m) (w_of m) (padd (offset_of m) o) false.
Definition translate_before (m : mat) (o : pt) : mat :=
  set_matrix (u_of m) (v_of m) (w_of m)
    (Pt (m30 m + (m00 m * px o + m10 m * py o + m20 m * pz o))
        (m31 m + (m01 m * px o + m11 m * py o + m21 m * pz o))
        (m32 m + (m02 m * px o + m12 m * py o + m22 m * pz o))) false.

(** [RotateXAfter], [RotateYAfter], [RotateZAfter] (405-469). *)
Definition rotate_x_after (m : mat) (deg : R) : mat :=
  let c := cos (radians deg) in let s := sin (radians deg) in
  Mat (m00 m) (m01 m * c - m02 m * s) (m01 m * s + m02 m * c)
      (m10 m) (m11 m * c - m12 m * s) (m11 m * s + m12 m * c)
      (m20 m) (m21 m * c - m22 m * s) (m21 m * s + m22 m * c)
      (m30 m) (m31 m * c - m32 m * s) (m31 m * s + m32 m * c).
Definition rotate_y_after (m : mat) (deg : R) : mat :=
  let c := cos (radians deg) in let s := sin (radians deg) in
  Mat (m00 m * c + m02 m * s) (m01 m) (- m00 m * s + m02 m * c)
      (m10 m * c + m12 m * s) (m11 m) (- m10 m * s + m12 m * c)
      (m20 m * c + m22 m * s) (m21 m) (- m20 m * s + m22 m * c)
      (m30 m * c + m32 m * s) (m31 m) (- m30 m * s + m32 m * c).
Definition rotate_z_after (m : mat) (deg : R) : mat :=
  let c := cos (radians deg) in let s := sin (radians deg) in
  Mat (m00 m * c - m01 m * s) (m00 m * s + m01 m * c) (m02 m)
      (m10 m * c - m11 m * s) (m10 m * s + m11 m * c) (m12 m)
      (m20 m * c - m21 m * s) (m20 m * s + m21 m * c) (m22 m)
      (m30 m * c - m31 m * s) (m30 m * s + m31 m * c) (m32 m).

(** [RotateXBefore], [RotateYBefore], [RotateZBefore] (471-534). *)
Definition rotate_x_before (m : mat) (deg : R) : mat :=
  let c := cos (radians deg) in let s := sin (radians deg) in
  Mat (m00 m) (m01 m) (m02 m)
      (m10 m * c + m20 m * s) (m11 m * c + m21 m * s) (m12 m * c + m22 m * s)
      (- m10 m * s + m20 m * c) (- m11 m * s + m21 m * c) (- m12 m * s + m22 m * c)
      (m30 m) (m31 m) (m32 m).
Definition rotate_y_before (m : mat) (deg : R) : mat :=
  let c := cos (radians deg) in let s := sin (radians deg) in
  Mat (m00 m * c - m20 m * s) (m01 m * c - m21 m * s) (m02 m * c - m22 m * s)
      (m10 m) (m11 m) (m12 m)
      (m00 m * s + m20 m * c) (m01 m * s + m21 m * c) (m02 m * s + m22 m * c)
      (m30 m) (m31 m) (m32 m).
Definition rotate_z_before (m : mat) (deg : R) : mat :=
  let c := cos (radians deg) in let s := sin (radians deg) in
  Mat (m00 m * c + m10 m * s) (m01 m * c + m11 m * s) (m02 m * c + m12 m * s)
      (- m00 m * s + m10 m * c) (- m01 m * s + m11 m * c) (- m02 m * s + m12 m * c)
      (m20 m) (m21 m) (m22 m)
      (m30 m) (m31 m) (m32 m).

(** [ScaleAfter] (536-541), [RotateRoundPoint] (543-550), [ScaleWithCenter] (552-557). *)
Definition scale_after (m : mat) (x y z : R) : mat :=
  Mat (m00 m * x) (m01 m * y) (m02 m * z)  (m10 m * x) (m11 m * y) (m12 m * z)
      (m20 m * x) (m21 m * y) (m22 m * z)  (m30 m * x) (m31 m * y) (m32 m * z).
Definition minus (p : pt) : pt := Pt (- px p) (- py p) (- pz p).
Definition rotate_round (m : mat) (c : pt) (x y z : R) : mat :=
  translate_after (rotate_z_after (rotate_y_after (rotate_x_after (translate_after m (minus c)) x) y) z) c.
Definition scale_with_center (m : mat) (c : pt) (x y z : R) : mat :=
  translate_after (scale_after (translate_after m (minus c)) x y z) c.

(** [PointTransform] (568-575), [InversePointTransform] (595-611); [TransformPoint] (623-631) and
    [InverseTransformPoint] (647-659) compute the same in place. *)
Definition transform (m : mat) (p : pt) : pt :=
  Pt (px p * m00 m + py p * m10 m + pz p * m20 m + m30 m)
     (px p * m01 m + py p * m11 m + pz p * m21 m + m31 m)
     (px p * m02 m + py p * m12 m + pz p * m22 m + m32 m).
Definition inverse_transform (m : mat) (p : pt) : pt :=
  let x := px p - m30 m in let y := py p - m31 m in let z := pz p - m32 m in
  Pt (x * m00 m + y * m01 m + z * m02 m)
     (x * m10 m + y * m11 m + z * m12 m)
     (x * m20 m + y * m21 m + z * m22 m).

(** The same with two coordinates: [PointTransform] (559-566), [InversePointTransform] (577-593). *)
Definition transform2 (m : mat) (p : R * R) : R * R :=
  (fst p * m00 m + snd p * m10 m + 0 * m20 m + m30 m, fst p * m01 m + snd p * m11 m + 0 * m21 m + m31 m).
Definition inverse_transform2 (m : mat) (p : R * R) : R * R :=
  let x := fst p - m30 m in let y := snd p - m31 m in let z := 0 - m32 m in
  (x * m00 m + y * m01 m + z * m02 m, x * m10 m + y * m11 m + z * m12 m).

(** [operator*] and [operator*=] (709-734): [mul a b] is [a * b]. *)
Definition mul (t m : mat) : mat :=
  Mat (m00 m * m00 t + m10 m * m01 t + m20 m * m02 t)
      (m01 m * m00 t + m11 m * m01 t + m21 m * m02 t)
      (m02 m * m00 t + m12 m * m01 t + m22 m * m02 t)
      (m00 m * m10 t + m10 m * m11 t + m20 m * m12 t)
      (m01 m * m10 t + m11 m * m11 t + m21 m * m12 t)
      (m02 m * m10 t + m12 m * m11 t + m22 m * m12 t)
      (m00 m * m20 t + m10 m * m21 t + m20 m * m22 t)
      (m01 m * m20 t + m11 m * m21 t + m21 m * m22 t)
      (m02 m * m20 t + m12 m * m21 t + m22 m * m22 t)
      (m00 m * m30 t + m10 m * m31 t + m20 m * m32 t + m30 m)
      (m01 m * m30 t + m11 m * m31 t + m21 m * m32 t + m31 m)
      (m02 m * m30 t + m12 m * m31 t + m22 m * m32 t + m32 m).

(** ** The matrices of the interface (Utility.cpp:31-51) *)

(** [STransformMatrix] (IMediaRessourceVectorInterface.h). *)
Record smat := SMat { s_ux : R; s_uy : R; s_uz : R; s_vx : R; s_vy : R; s_vz : R;
                      s_wx : R; s_wy : R; s_wz : R; s_ox : R; s_oy : R; s_oz : R }.
Definition from_smat (s : smat) : mat :=
  Mat (s_ux s) (s_uy s) (s_uz s)  (s_vx s) (s_vy s) (s_vz s)  (s_wx s) (s_wy s) (s_wz s)  (s_ox s) (s_oy s) (s_oz s).
Definition to_smat (m : mat) : smat :=
  SMat (m00 m) (m01 m) (m02 m)  (m10 m) (m11 m) (m12 m)  (m20 m) (m21 m) (m22 m)  (m30 m) (m31 m) (m32 m).
