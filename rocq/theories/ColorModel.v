(** Model of the colours: RGBColor.cpp and CieColor.cpp.

    Simplified: doubles are real numbers (nothing is rounded), the values of a colour are whole numbers without the limits of
    Sint32 except where it is said. *)
From Coq Require Import ZArith Reals.
Local Open Scope R_scope.

(** The comparison [a < b] as a value. *)
Definition ltb (a b : R) : bool := if Rlt_dec a b then true else false.

(** ** Colours of red, green and blue (RGBColor.cpp) *)

Record rgb := Rgb { red : Z; green : Z; blue : Z }.

(** [CRGBColor::CRGBColor] (11-16, 18-23), [SetColor] (106-111). *)
Definition black : rgb := Rgb 0 0 0.

(** [SetRed] (73-76), [SetBlue] (93-96). *)
Definition set_red (c : rgb) (v : Z) : rgb := Rgb v (green c) (blue c).
Definition set_blue (c : rgb) (v : Z) : rgb := Rgb (red c) (green c) v.
(** [SetGreen] (83-86). *)
Definition set_green (c : rgb) (v : Z) : rgb := Rgb (red c) (Z.lor (Z.shiftl v 8) v) (blue c).

(** [operator==] (55-61). *)
Definition rgb_eq (a b : rgb) : bool := (Z.eqb (red a) (red b) && Z.eqb (green a) (green b) && Z.eqb (blue a) (blue b))%bool.

(** The conversion of a double to Sint32: towards zero. *)
Definition trunc (x : R) : Z := if Rle_dec 0 x then Int_part x else Z.opp (Int_part (- x)).

(** The colour between two colours (34-42). *)
Definition mix (l r : Z) (percent : R) : Z := trunc (IZR (r - l) * (percent / 100) + IZR l).
Definition gradient (l r : rgb) (percent : R) : rgb :=
  Rgb (mix (red l) (red r) percent) (mix (green l) (green r) percent) (mix (blue l) (blue r) percent).

(** ** CIE colours (CieColor.cpp) *)

Record cie := Cie { c_x : R; c_y : R; c_lum : R }.

(** [CCieColor::CCieColor] (15-21). *)
Definition default : cie := Cie (31273 / 100000) (32902 / 100000) 100.

(** [CCieColor::CCieColor] with a colour: the linear values (40-42) as X, Y and Z (47-49). *)
Definition to_x (r g b : R) : R := 412424 / 1000000 * r + 357579 / 1000000 * g + 180464 / 1000000 * b.
Definition to_y (r g b : R) : R := 212656 / 1000000 * r + 715158 / 1000000 * g + 721856 / 10000000 * b.
Definition to_z (r g b : R) : R := 193324 / 10000000 * r + 119193 / 1000000 * g + 950444 / 1000000 * b.
(** Then as x, y and luminance (52-63). *)
Definition small (x : R) : bool := ltb (Rabs x) (/ 1000000).
Definition of_xyz (x y z : R) : cie :=
  if (small x || small y || small z)%bool then Cie 0 0 0
  else Cie (x / (x + y + z)) (y / (x + y + z)) (y * 100).
Definition of_rgb (c : rgb) : cie :=
  let r := IZR (red c) / 255 in let g := IZR (green c) / 255 in let b := IZR (blue c) / 255 in
  of_xyz (to_x r g b) (to_y r g b) (to_z r g b).

(** [GetRGBColor] (85-129): X, Y and Z (93-106) ... *)
Definition xyz_of (c : cie) : R * R * R :=
  if small (c_y c) then (0, 0, 0)
  else let l := c_lum c / 100 in (c_x c * l / c_y c, l, (1 - c_x c - c_y c) * l / c_y c).
(** ... the linear values (109-111) ... *)
Definition from_r (x y z : R) : R := x * (324071 / 100000) + y * - (153726 / 100000) + z * - (498571 / 1000000).
Definition from_g (x y z : R) : R := x * - (969258 / 1000000) + y * (187599 / 100000) + z * (415557 / 10000000).
Definition from_b (x y z : R) : R := x * (556352 / 10000000) + y * - (203996 / 1000000) + z * (105707 / 100000).
(** ... with the curve of sRGB (113-118), between 0 and 1 (123-124) and as numbers up to 255 (127-129). *)
Definition curve (v : R) : R :=
  if ltb (31308 / 10000000) v then 1055 / 1000 * Rpower v (1 / (24 / 10)) - 55 / 1000 else 1292 / 100 * v.
Definition clamp (v : R) : R :=
  let v1 := if ltb v 0 then 0 else v in if ltb 1 v1 then 1 else v1.
Definition byte_of (v : R) : Z := trunc (clamp (curve v) * 255).
Definition rgb_of (c : cie) : rgb :=
  let '(x, y, z) := xyz_of c in
  Rgb (byte_of (from_r x y z)) (byte_of (from_g x y z)) (byte_of (from_b x y z)).
