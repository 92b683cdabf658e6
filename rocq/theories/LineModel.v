(** Model of the lines in the plane: VWLine2D.cpp, with the functions of VWPoint2D.cpp and VWMathUtils.cpp it uses.

    Simplified: doubles are real numbers, so nothing is rounded and nothing overflows; where a double would be divided by zero
    the comparison that follows has the same result for the real number 0 as for the NaN.  The functions that go through
    RelativeCoords (PtPerpLine with one argument, PtOnLine, DistanceSeg, GetAngle90) are in AngleModel.v, but for
    PtPerpLineSeg with one argument, for which the projection is a parameter.  Subtract is left out. *)
From Coq Require Import Reals Bool.
From Verif Require Import TransModel.
Local Open Scope R_scope.

Record p2 := P2 { vx : R; vy : R }.
Definition add2 (a b : p2) : p2 := P2 (vx a + vx b) (vy a + vy b).
Definition sub2 (a b : p2) : p2 := P2 (vx a - vx b) (vy a - vy b).
Definition scale2 (a : p2) (s : R) : p2 := P2 (vx a * s) (vy a * s).
(** VWPoint2D.cpp:171-180, 247-262, 330-339, 377-393. *)
Definition mag2 (a : p2) : R := vx a * vx a + vy a * vy a.
Definition len2 (a : p2) : R := sqrt (mag2 a).
Definition dot2 (a b : p2) : R := vx a * vx b + vy a * vy b.
Definition cross2 (a b : p2) : R := vx a * vy b - vy a * vx b.
Definition perp (a : p2) : p2 := P2 (vy a) (- vx a).
Definition norm2 (a : p2) : p2 := let len := len2 a in if ltb 0 len then P2 (vx a / len) (vy a / len) else a.
Definition dist2 (a b : p2) : R := sqrt (mag2 (sub2 b a)).
Definition dist2_sq (a b : p2) : R := mag2 (sub2 b a).

(** [RotateAtRad], VWPoint2D.cpp:231-246. *)
Definition rotate_at (p c : p2) (a : R) : p2 :=
  let x := vx p - vx c in let y := vy p - vy c in
  P2 (cos a * x + sin a * y + vx c) (- sin a * x + cos a * y + vy c).

(** VWMathUtils.cpp:50-58. *)
Definition ge_ish (a b eps : R) : bool := negb (ltb a b) || ltb (b - eps) a.
Definition le_ish (a b eps : R) : bool := negb (ltb b a) || ltb a (b + eps).

(** [CalcLineEquation], VWLine2D.cpp:221-230. *)
Definition line_equation (s e : p2) : R * R * R :=
  let dir := sub2 e s in
  let pr := norm2 (P2 (- vy dir) (vx dir)) in
  (vx pr, vy pr, - (vx s * vx pr + vy s * vy pr)).
(** [AreOnSameSide], VWLine2D.cpp:366-373. *)
Definition same_side (s e a b : p2) : bool :=
  let '(A, B, C) := line_equation s e in
  eqb (negb (ltb (A * vx a + B * vy a + C) 0)) (negb (ltb (A * vx b + B * vy b + C) 0)).
(** [PtOnLeftOfLine], VWLine2D.cpp:876-880. *)
Definition on_left (p a b : p2) : bool :=
  negb (ltb ((vx b - vx a) * (vy p - vy a)) ((vy b - vy a) * (vx p - vx a))).

(** What [IntersectLines], VWLine2D.cpp:486-525, gives; without the point the lines count as parallel and all flags are false. *)
Record crossing := Cross { c_point : option p2; c_parallel : bool; c_seg1_start : bool; c_seg1_end : bool; c_on1 : bool; c_on2 : bool }.
Definition no_crossing : crossing := Cross None true false false false false.
Definition crossing_at (a b c d : p2) (t eps : R) : crossing :=
  let ua := ((vx d - vx c) * (vy a - vy c) - (vy d - vy c) * (vx a - vx c)) / t in
  let ub := ((vx b - vx a) * (vy a - vy c) - (vy b - vy a) * (vx a - vx c)) / t in
  Cross (Some (P2 (vx a + ua * (vx b - vx a)) (vy a + ua * (vy b - vy a)))) false
    (ltb (- eps) ua && ltb ua eps) (ltb (1 - eps) ua && ltb ua (1 + eps))
    (ltb (- eps) ua && ltb ua (1 + eps)) (ltb (- eps) ub && ltb ub (1 + eps)).
Definition cross_of (a b c d : p2) : R := (vy d - vy c) * (vx b - vx a) - (vx d - vx c) * (vy b - vy a).
Definition intersect_lines (a b c d : p2) (eps : R) : crossing :=
  let t := cross_of a b c d in
  if ltb eps (abs t) then crossing_at a b c d t eps else no_crossing.
(** The variant with two epsilons, VWLine2D.cpp:531-586; [None]: nothing is stored.  The length of the first line is compared
    twice, that of the second one never. *)
Definition intersect_lines_stable (a b c d : p2) (eps epsCollinear : R) : option crossing :=
  let l1 := mag2 (sub2 b a) in
  let l2 := mag2 (sub2 d c) in
  if ltb (eps * eps) l1 && ltb (eps * eps) l1 then
    let t := cross_of a b c d in
    let tNorm := t / sqrt (l1 * l2) in
    Some (if ltb epsCollinear (abs tNorm) then crossing_at a b c d t eps else no_crossing)
  else None.

(** [DoLineSegmentsBoundsIntersect], VWLine2D.cpp:783-805. *)
Definition lower (a b : R) : R := if ltb a b then a else b.
Definition upper (a b : R) : R := if ltb a b then b else a.
Definition bounds_meet (a b c d : p2) (eps : R) : bool :=
  ge_ish (upper (vx c) (vx d)) (lower (vx a) (vx b)) eps && ge_ish (upper (vx a) (vx b)) (lower (vx c) (vx d)) eps
  && le_ish (lower (vy c) (vy d)) (upper (vy a) (vy b)) eps && le_ish (lower (vy a) (vy b)) (upper (vy c) (vy d)) eps.
(** [AreLineSegmentsIntersecting] without the point, VWLine2D.cpp:663-695. *)
Definition segments_meet (a b c d : p2) (eps : R) : bool :=
  bounds_meet a b c d eps &&
  (let t := cross_of a b c d in
   ltb eps (abs t) &&
   (let ua := ((vx d - vx c) * (vy a - vy c) - (vy d - vy c) * (vx a - vx c)) * (1 / t) in
    let ub := ((vx b - vx a) * (vy a - vy c) - (vy b - vy a) * (vx a - vx c)) * (1 / t) in
    (ltb eps (abs ua) || ltb eps (abs ub)) &&
    (ltb (- eps) ua && ltb ua (1 + eps) && ltb (- eps) ub && ltb ub (1 + eps)))).
(** The one with the point, VWLine2D.cpp:706-744: the result and, if they are stored, the point and the flag for parallel
    lines. *)
Definition segments_meet_at (a b c d : p2) (eps : R) : bool * option p2 * option bool :=
  if bounds_meet a b c d eps then
    let t := cross_of a b c d in
    if ltb eps (abs t) then
      let ua := ((vx d - vx c) * (vy a - vy c) - (vy d - vy c) * (vx a - vx c)) * (1 / t) in
      let ub := ((vx b - vx a) * (vy a - vy c) - (vy b - vy a) * (vx a - vx c)) * (1 / t) in
      (ltb (- eps) ua && ltb ua (1 + eps) && ltb (- eps) ub && ltb ub (1 + eps),
       Some (P2 (vx a + ua * (vx b - vx a)) (vy a + ua * (vy b - vy a))),
       Some (ltb (abs ua) eps && ltb (abs ub) eps))
    else (false, None, Some true)
  else (false, None, None).

(** [Distance] of a point and a line, VWLine2D.cpp:748-773. *)
Definition line_distance (p a b : p2) : R :=
  let l := (vx b - vx a) * (vx b - vx a) + (vy b - vy a) * (vy b - vy a) in
  if ltb (abs l) (/ 1000000) then 0
  else abs ((vx b - vx a) * (vy a - vy p) - (vx a - vx p) * (vy b - vy a)) / sqrt l.
(** [PtPerpLine] with six arguments, VWLine2D.cpp:854-874. *)
Definition project (p a b : p2) : p2 :=
  let dx := vx b - vx a in let dy := vy b - vy a in
  let dot := dx * (vx p - vx a) + dy * (vy p - vy a) in
  let inv := 1 / (dx * dx + dy * dy) in
  P2 (vx a + dot * dx * inv) (vy a + dot * dy * inv).
(** [PtPerpLineSeg] with the squared distance, VWLine2D.cpp:808-851. *)
Definition closest (p a b : p2) : p2 * R :=
  let v := sub2 b a in
  let pr := perp v in
  if on_left p a (add2 a pr) && negb (on_left p b (add2 b pr)) then
    let coeff := dot2 v (sub2 p a) / mag2 v in
    let q := add2 (scale2 a (1 - coeff)) (scale2 b coeff) in
    (q, dist2_sq p q)
  else if ltb (dist2_sq p a) (dist2_sq p b) then (a, dist2_sq p a) else (b, dist2_sq p b).
(** [PtPerpLineSeg] with one argument, VWLine2D.cpp:315-325. *)
Definition closest1 (proj : p2 -> p2 -> p2 -> p2) (p a b : p2) : p2 :=
  let ds := dist2 p a in
  let de := dist2 p b in
  let len := dist2 b a in
  if negb (ltb len ds) && negb (ltb len de) then proj p a b else if ltb ds de then a else b.
