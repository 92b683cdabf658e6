(** Colours, vectors, matrices, rotations and lists of doubles as attributes (XmlFileHelper.cpp).

    [point] is the decimal point of the locale, see FloatModel.  Errors are counted, not kept
    ([rd_errs] of ConvModel). *)
From Coq Require Import String List NArith ZArith Bool.
From Verif Require Import Bytes Txt UtfModel StringModel UuidModel NumModel ConvModel FloatModel.
Import ListNotations.
Open Scope N_scope.

(** The loop "while (pos > 0)" over [Find(sep)], for example 1138-1156: the parts in front of each
    separator and the rest.  It stops at a separator at position 0. *)
Fixpoint parts (fuel : nat) (sep s : list N) : res (list (list N)) :=
  match fuel with
  | O => Loop
  | S f =>
    match tx_find s sep 0 false with
    | Some (N.pos p) =>
      let inner := map (fun i => get_at s i) (seq 0 (Pos.to_nat p)) in
      do r <- parts f sep (delete s 0 (N.pos p + nlen sep)); Ok (inner :: r)
    | _ => Ok [s]
    end
  end.
Definition split_at (sep s : list N) : res (list (list N)) := parts (S (List.length s)) sep s.
(** [GetAt(0) == '{'] then [Delete(0,1)], [GetLast() == '}'] then [DeleteLast()], for example 1041-1057;
    each missing bracket is an error. *)
Definition open_bracket (s : list N) : list N * N :=
  if get_at s 0 =? 123 then (delete s 0 1, 0) else (s, 1).
Definition close_bracket (s : list N) : list N * N :=
  match rev s with c :: r => if c =? 125 then (rev r, 0) else (s, 1) | [] => (s, 1) end.
Definition brackets (s : list N) : list N * N :=
  let '(a, e1) := open_bracket s in let '(b, e2) := close_bracket a in (b, e1 + e2).

Fixpoint all_ok {A B} (f : A -> res B) (l : list A) : res (list B) :=
  match l with [] => Ok [] | a :: r => do b <- f a; do bs <- all_ok f r; Ok (b :: bs) end.

Definition vec : Type := fl * fl * fl.
(** VWTransformMatrix: the rows of fMatrix.mat are U, V, W and the offset. *)
Record mat := mkMat { mU : vec; mV : vec; mW : vec; mO : vec }.
Definition zero : fl := Fin false 0.
Definition one : fl := Fin false units.
(** [SetIdentity]. *)
Definition identity : mat := mkMat (one, zero, zero) (zero, one, zero) (zero, zero, one) (zero, zero, zero).
(** [matrix.fMatrix.mat[i][0..2] = ...] and [matrix.fMatrix.mat[3][i] = ...]. *)
Definition set_row (m : mat) (i : nat) (v : vec) : mat :=
  match i with
  | 0%nat => mkMat v (mV m) (mW m) (mO m)
  | 1%nat => mkMat (mU m) v (mW m) (mO m)
  | 2%nat => mkMat (mU m) (mV m) v (mO m)
  | _ => mkMat (mU m) (mV m) (mW m) v
  end.
Definition set_offset (m : mat) (i : nat) (x : fl) : mat :=
  let '(a, b, c) := mO m in
  mkMat (mU m) (mV m) (mW m)
    match i with 0%nat => (x, b, c) | 1%nat => (a, x, c) | 2%nat => (a, b, x) | _ => mO m end.

Section Locale.
Variable point : N.
Notation txt := (fl_text point).

(** [Deserialize] for doubles, 2309-2344.  The texts are split first and converted afterwards here; the
    code does both in one loop, in the same order. *)
Definition read_values (s : list N) : res (list fl * N) :=
  do ps <- split_at (T",") s;
  do xs <- all_ok (atof point) ps;
  Ok (xs, match tx_find s (T",") 0 false with Some _ => 0 | None => 1 end).

(** [ConvertDouble], 377-393. *)
Definition write_double (x : fl) : list N := txt x.
Definition read_double (old : fl) (s : list N) : res (rd_res fl) :=
  if is_empty s then Ok (mkRd old false 0) else do x <- atof point s; Ok (mkRd x true 0).

(** [ConvertColor], 253-288; [white] is the colour of the constructor, CieColor.cpp:15-21. *)
Definition write_color (c : vec) : list N :=
  let '(x, y, z) := c in txt x ++ T"," ++ txt y ++ T"," ++ txt z.
Definition read_color (white : vec) (s : list N) : res (rd_res vec) :=
  if is_empty s then Ok (mkRd white true 0) else
  do r <- read_values s;
  match fst r with
  | [x; y; z] => Ok (mkRd (x, y, z) true (snd r))
  | _ => Ok (mkRd white false (snd r + 1))
  end.

(** [ConvertColorArray], 290-375. *)
Definition row3 (v : vec) : list N := let '(x, y, z) := v in T"{" ++ txt x ++ T"," ++ txt y ++ T"," ++ txt z ++ T"}".
Definition write_colors (l : list vec) : list N := flat_map row3 l.
Fixpoint add_colors (cs : list vec) (lines : list (list N)) (errs : N) : res (list vec * N) :=
  match lines with
  | [] => Ok (cs, errs)
  | l :: r =>
    do v <- read_values l;
    match fst v with
    | [x; y; z] => add_colors (cs ++ [(x, y, z)]) r (errs + snd v)
    | _ => add_colors cs r (errs + snd v + 1)
    end
  end.
Definition read_colors (old : list vec) (s : list N) : res (rd_res (list vec)) :=
  if is_empty s then Ok (mkRd old true 0) else
  let '(b, e) := brackets s in
  do lines <- split_at (T"}{") b;
  do r <- add_colors old lines e; Ok (mkRd (fst r) true (snd r)).

(** [ConvertDoubleArray], 528-550 and 552-567. *)
Definition write_doubles (l : list fl) (br : bool) : list N :=
  (if br then T"{" else []) ++ join_with (T",") (map txt l) ++ (if br then T"}" else []).
Definition read_doubles (arr : list fl) (s : list N) : res (rd_res (list fl)) :=
  if is_empty s then Ok (mkRd arr false 0) else
  do s1 <- replace1 s 123; do s2 <- replace1 s1 125;
  do r <- read_values s2; Ok (mkRd (arr ++ fst r) true (snd r)).

(** [ConvertVector3], 1023-1028 and 1030-1077. *)
Definition write_vec (v : vec) : list N := row3 v.
Definition read_vec (old : vec) (s : list N) : res (rd_res vec) :=
  if is_empty s then Ok (mkRd (zero, zero, zero) true 0) else
  let '(b, e) := brackets s in
  do r <- read_values b;
  match fst r with
  | [x; y; z] => Ok (mkRd (x, y, z) true (e + snd r))
  | _ => Ok (mkRd old false (e + snd r + 1))
  end.

(** [ConvertMatrix], 1079-1101. *)
Definition row4 (v : vec) (o : fl) : list N :=
  let '(x, y, z) := v in T"{" ++ txt x ++ T"," ++ txt y ++ T"," ++ txt z ++ T"," ++ txt o ++ T"}".
Definition write_matrix (four : bool) (m : mat) : list N :=
  if four then
    let '(a, b, c) := mO m in row4 (mU m) a ++ row4 (mV m) b ++ row4 (mW m) c ++ T"{0,0,0,1}"
  else row3 (mU m) ++ row3 (mV m) ++ row3 (mW m) ++ row3 (mO m).
(** 1168-1202; [i] is the number of the line. *)
Fixpoint matrix_lines (m : mat) (i : nat) (lines : list (list N)) (errs : N) : res (mat * N) :=
  match lines with
  | [] => Ok (m, errs)
  | l :: r =>
    do v <- read_values l;
    match fst v with
    | [x; y; z] => matrix_lines (set_row m i (x, y, z)) (S i) r (errs + snd v)
    | [x; y; z; o] =>
      matrix_lines (if (i <? 3)%nat then set_offset (set_row m i (x, y, z)) i o else m) (S i) r (errs + snd v)
    | _ => matrix_lines m (S i) r (errs + snd v + 1)
    end
  end.
(** 1103-1205. *)
Definition read_matrix (old : mat) (s : list N) : res (rd_res mat) :=
  if is_empty s then Ok (mkRd identity true 0) else
  let '(b, e) := brackets s in
  do lines <- split_at (T"}{") b;
  if (List.length lines =? 4)%nat then do r <- matrix_lines old 0 lines e; Ok (mkRd (fst r) true (snd r))
  else Ok (mkRd old false (e + 1)).

(** [ConvertRotation], 1207-1215 and 1219-1299. *)
Definition write_rotation (m : mat) : list N := row3 (mU m) ++ row3 (mV m) ++ row3 (mW m).
Fixpoint rotation_lines (m : mat) (i : nat) (lines : list (list N)) (errs : N) : res (mat * N) :=
  match lines with
  | [] => Ok (m, errs)
  | l :: r =>
    do v <- read_values l;
    match fst v with
    | [x; y; z] => rotation_lines (set_row m i (x, y, z)) (S i) r (errs + snd v)
    | _ => rotation_lines m (S i) r (errs + snd v + 1)
    end
  end.
Definition read_rotation (old : mat) (s : list N) : res (rd_res mat) :=
  let '(b, e) := brackets s in
  do lines <- split_at (T"}{") b;
  if (List.length lines =? 3)%nat then do r <- rotation_lines old 0 lines e; Ok (mkRd (fst r) true (snd r))
  else Ok (mkRd old false (e + 1)).
End Locale.
