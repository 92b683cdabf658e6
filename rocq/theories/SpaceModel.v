(** Model of lines and planes in space: VWLine3D.cpp and the test of VWPoint3D.cpp for points of planes.

    Simplified: doubles are real numbers, so nothing is rounded and nothing overflows.  IsOnTriangle and the inscribed
    circle are left out. *)
From Coq Require Import Reals Bool.
From Verif Require Import TransModel LineModel AngleModel.
Local Open Scope R_scope.

(** [GetDistance], VWLine3D.cpp:170-203. *)
Definition line3_distance (p a b : pt) : R := magnitude (cross (psub b a) (psub a p)) / magnitude (psub b a).
(** [GetVerticalDistance], VWLine3D.cpp:220-240. *)
Definition vertical_distance (a b p : pt) : R :=
  let d := dist2 (P2 (px a) (py a)) (P2 (px b) (py b)) in
  let dp := dist2 (P2 (px a) (py a)) (P2 (px p) (py p)) in
  if ltb (abs d) s_epsilon then if ltb (pz a) (pz b) then pz a else pz b
  else if negb (ltb (pz b) (pz a)) then (pz b - pz a) * (dp / d) + pz a
  else (pz a - pz b) * ((d - dp) / d) + pz b.

(** [Equalish] of points, VWMathUtils.cpp:37-43. *)
Definition eq_ish3 (a b : pt) (eps : R) : bool :=
  ltb (abs (px a - px b)) eps && ltb (abs (py a - py b)) eps && ltb (abs (pz a - pz b)) eps.
(** [IsPtOnLine], VWLine3D.cpp:325-358. *)
Definition pt_on_line3 (p a b : pt) (ceps reps : R) : bool :=
  let v := psub b a in
  let l := magnitude2 v in
  let seps := ceps * ceps in
  if eq_ish l 0 seps then eq_ish3 p a ceps
  else
    let c := dot (normalize v) (normalize (psub p a)) in
    if eq_ish c 1 reps then le_ish (distance2 p a) l seps && le_ish (distance2 p b) l seps else false.

(** [PtOnLine], VWLine3D.cpp:242-309; [incl] says whether the end points count. *)
Definition pt_on_seg3 (p a b : pt) (eps : R) (incl : bool) : bool :=
  let a2 := P2 (px a) (py a) in
  let b2 := P2 (px b) (py b) in
  if pt_on_line (P2 (px p) (py p)) a2 b2 eps then
    if ltb (dist2 a2 b2) eps then
      let lo := if ltb (pz a) (pz b) then pz a else pz b in
      let hi := if ltb (pz a) (pz b) then pz b else pz a in
      if incl then ge_ish (pz p) lo eps && le_ish (pz p) hi eps
      else gt_ish (pz p) lo eps && lt_ish (pz p) hi eps
    else if negb incl && (eq_ish3 a p eps || eq_ish3 b p eps) then false
    else eq_ish (pz p) (vertical_distance a b (Pt (px p) (py p) 0)) eps
  else false.

(** [IsOnPlane], VWPoint3D.cpp:339-374.  The normal vector is a reference to a temporary object: Normalize returns a reference
    to the object it is called on, which lives only until the end of the declaration.  What is read from it later is [stale],
    which would be [plane_normal v0 v1] if the object were still there. *)
Definition plane_normal (v0 v1 : pt) : pt := normalize (cross v0 v1).
Definition pt_on_plane (stale p pp : pt) (ceps reps : R) : bool :=
  let v := psub p pp in
  if eq_ish (magnitude2 v) 0 (ceps * ceps) then true
  else eq_ish (dot stale (normalize v)) 0 reps.
(** [IntersectPlane], VWLine3D.cpp:373-466: [None] if there is no intersection, else the line stored and whether it is on the
    plane.  The matrix has the vectors of the plane as columns; the minors are those of its first two columns. *)
Definition minor (v0 v1 : pt) (r0 r1 : pt -> R) : R := r0 v0 * r1 v1 - r0 v1 * r1 v0.
Definition det_with (v0 v1 w : pt) : R := px w * minor v0 v1 py pz - py w * minor v0 v1 px pz + pz w * minor v0 v1 px py.
Definition intersect_plane (stale : pt) (a b pp v0 v1 : pt) (ceps reps : R) : option (pt * pt * bool) :=
  let v := psub b a in
  let len := magnitude v in
  if eq_ish len 0 ceps then if pt_on_plane stale a pp ceps reps then Some (a, b, true) else None
  else
    let det := det_with v0 v1 v in
    if eq_ish det 0 (/ 100000000000000) then if pt_on_plane stale a pp ceps reps then Some (a, b, true) else None
    else
      let g := - (det_with v0 v1 (psub a pp) / det) in
      let eps := ceps / len in
      if ge_ish g 0 eps && le_ish g 1 eps then let q := padd a (pscale v g) in Some (q, q, false) else None.
