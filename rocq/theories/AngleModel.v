(** Model of angles and of the coordinates relative to a line: VWMathUtils.cpp, VWPoint2D.cpp and the functions of VWLine2D.cpp
    that go through [RelativeCoords].

    Simplified: doubles are real numbers, so nothing is rounded and nothing overflows, and pi, sine, cosine, arc tangent and
    arc cosine are exact.  [FixedAngle], the random numbers and [Subtract] (which takes its result by value) are left out. *)
From Coq Require Import Reals Bool.
From Verif Require Import TransModel LineModel.
Local Open Scope R_scope.

(** kRadiansPerDegree and kDegreesPerRadian, BasicMath.X.cpp:13-14. *)
Definition rad : R := PI / 180.
Definition deg : R := 180 / PI.
(** [DoubleIsNearlyZero], MCFloat.h:463-486, with the epsilon of MCFloat.cpp:14. *)
Definition tiny : R := / 10000000000.
Definition nearly_zero (n : R) : bool := negb (ltb tiny (abs n)).
Definition is_zero (x : R) : bool := negb (ltb x 0) && negb (ltb 0 x).
(** [Equalish], [Greaterish], [Lesserish] and [IsBetween], VWMathUtils.cpp:25-28, 60-77. *)
Definition eq_ish (a b eps : R) : bool := ltb (abs (b - a)) eps.
Definition gt_ish (a b eps : R) : bool := ltb b a && negb (ltb a (b + eps)).
Definition lt_ish (a b eps : R) : bool := ltb a b && negb (ltb (b - eps) a).
Definition is_between (a b c eps : R) : bool :=
  if ltb b c then (ltb b a || eq_ish a b eps) && (ltb a c || eq_ish a c eps)
  else (ltb a b || eq_ish a b eps) && (ltb c a || eq_ish a c eps).

(** [SpecialSin] and [SpecialCos], VWMathUtils.cpp:111-161.  The loop takes 90 degrees away until at most 90 are left; of the
    number of rounds only whether it is odd is used.  [None]: more rounds than [fuel]. *)
Fixpoint quarter (fuel : nat) (a : R) (odd : bool) : option (R * bool) :=
  if ltb 90 a then match fuel with O => None | S n => quarter n (a - 90) (negb odd) end else Some (a, odd).
Definition one_turn (a : R) : R :=
  let b := if ltb a 0 then a + 360 else a in
  if ltb 360 b then b - 360 else b.
Definition special_sin (fuel : nat) (ang : R) : option R :=
  let a := one_turn ang in
  match quarter fuel a false with
  | None => None
  | Some (n, odd) =>
    let n := if odd then 90 - n else n in
    let f := abs (sin (n * rad)) in
    Some (if negb (ltb a 0) && negb (ltb 180 a) then f else - f)
  end.
Definition special_cos (fuel : nat) (ang : R) : option R :=
  let a := one_turn ang in
  match quarter fuel a false with
  | None => None
  | Some (n, odd) =>
    let n := if odd then 90 - n else n in
    let f := abs (cos (n * rad)) in
    Some (if (negb (ltb a 0) && negb (ltb 90 a)) || (ltb (3 * 90) a && negb (ltb 360 a)) then f else - f)
  end.
(** [CalculateInterpolatedValue], VWMathUtils.cpp:198-217. *)
Definition interpolate (a b len il : R) : R :=
  if eq_ish il 0 (/ 1000000) then a
  else if ltb a b then a + il / len * (b - a) else b + (len - il) / len * (a - b).

(** [CalcAng180] and [CalcAng360], VWPoint2D.cpp:284-323. *)
Definition ang180 (p : p2) : R :=
  let m := len2 p in
  let c := if nearly_zero m then 0 else (1 * vx p + 0 * vy p + 0 * 0) / m in
  if is_zero c then if ltb 0 (vy p) then 90 else -90
  else
    let s := sqrt (1 - c * c) in
    let a := atan (s / c) * deg in
    if ltb (vx p) 0 then
      let a := if ltb 0 (vy p) then a + 180 else if ltb (vy p) 0 then - (180 + a) else a in
      if is_zero a then 180 else a
    else if ltb 0 (vx p) && ltb (vy p) 0 then - a else a.
Definition ang360 (p : p2) : R := let a := ang180 p in if ltb a 0 then a + 360 else a.
(** [CalcAngleBetween] of vectors that need not be normalized, VWPoint2D.cpp:521-559, with sEpsilon of VWPoint2D.cpp:15. *)
Definition angle_between (u v : p2) : R :=
  let d := len2 u * len2 v in
  if gt_ish d 0 (/ 10000000) then
    let c := dot2 u v / d in
    if negb (ltb (-1) c) then PI else if negb (ltb c 1) then 0 else acos c
  else 0.
(** [SetAngle], [SetPointByAngle] and [RelativeCoords], VWPoint2D.cpp:74-84, 332-337. *)
Definition point_by_angle (a len : R) : p2 := scale2 (P2 (cos (a * rad)) (sin (a * rad))) len.
Definition relative (p a b : p2) : p2 :=
  let q := sub2 p a in
  point_by_angle (ang180 q - ang180 (sub2 b a)) (len2 q).

(** [PtOnLine], VWLine2D.cpp:259-274. *)
Definition pt_on_line (p a b : p2) (eps : R) : bool :=
  let ab := len2 (sub2 b a) in
  let ac := len2 (sub2 p a) in
  let cb := len2 (sub2 b p) in
  ltb (abs (ab - (ac + cb))) eps &&
  (let y := vy (relative p a b) in ltb (if ltb y 0 then - y else y) eps).
(** [PtPerpLine] with one argument, VWLine2D.cpp:301-308. *)
Definition perp_line (p a b : p2) : p2 := add2 a (scale2 (norm2 (sub2 b a)) (vx (relative p a b))).
(** [GetAngle90], VWLine2D.cpp:277-292, of the line from [a] to [b] and the one from [c] to [d]. *)
Definition angle90 (a b c d : p2) : R :=
  let len := dist2 c d in
  if nearly_zero len then 0
  else
    let m := len2 (sub2 (perp_line c a b) (perp_line d a b)) in
    let k := m / len in
    let k := if ltb 1 (k + / 100000) then 1 else k in
    acos k * deg.
(** [DistanceSeg], VWLine2D.cpp:354-363. *)
Definition distance_seg (p a b : p2) : R :=
  let r := relative p a b in
  if ltb (dist2 a b) (vx r) then dist2 b p
  else if ltb (vx r) 0 then dist2 a p
  else line_distance p a b.

(** [IntersectLines] that also says whether the segments meet, VWLine2D.cpp:600-652: [None] if the lines are parallel, else
    whether the point is inside of both segments, and the point.  A parameter of a vertical segment is replaced by 0.5 if the
    point is between its ends; the second one is looked at only if the first one is not vertical. *)
Definition is_between2 (p a b : p2) (eps : R) : bool := is_between (vx p) (vx a) (vx b) eps && is_between (vy p) (vy a) (vy b) eps.
Definition inside (s eps : R) : bool := gt_ish s 0 eps && lt_ish s 1 eps.
Definition intersect_inside (a1 a2 b1 b2 : p2) (eps : R) : option (bool * p2) :=
  let part1 := (vx b2 - vx b1) * (vy a1 - vy a2) in
  let part2 := (vx a1 - vx a2) * (vy b2 - vy b1) in
  if eq_ish part1 part2 eps then None
  else
    let d := part1 - part2 in
    let s := ((vx a1 - vx b1) * (vy a1 - vy a2) + (vy a1 - vy b1) * (vx a2 - vx a1)) / d in
    let t := ((vx a1 - vx b1) * (vy b1 - vy b2) + (vy a1 - vy b1) * (vx b2 - vx b1)) / d in
    if is_zero (vx a1 - vx a2) then
      let q := P2 (vx a1) (s * (vy b2 - vy b1) + vy b1) in
      let t := if is_between2 q a1 a2 eps then / 2 else t in
      Some (inside s eps && inside t eps, q)
    else if is_zero (vx b1 - vx b2) then
      let q := P2 (vx b1) (t * (vy a2 - vy a1) + vy a1) in
      let s := if is_between2 q b1 b2 eps then / 2 else s in
      Some (inside s eps && inside t eps, q)
    else
      let q := P2 (t * (vx a2 - vx a1) + vx a1) (t * (vy a2 - vy a1) + vy a1) in
      Some (inside s eps && inside t eps, q).
