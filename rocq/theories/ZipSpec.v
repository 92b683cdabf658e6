(** Abstract specification of an archive: a list of (name, content) pairs in insertion
    order.  [packed d] is the stored form of a content; only its length matters here. *)
From Coq Require Import List NArith Bool.
From Verif Require Import Bytes ZipModel.
Import ListNotations.
Open Scope N_scope.

Definition files := list (list N * list N).

Fixpoint lookup (n : list N) (fs : files) : option (list N) :=
  match fs with
  | [] => None
  | (m, d) :: fs' => if beq_bytes m n then Some d else lookup n fs'
  end.

Definition mem (n : list N) (fs : files) : bool := existsb (fun f => beq_bytes (fst f) n) fs.

(** Adding under a name (backslashes count as slashes): an existing name is refused, a new
    one is appended.  An addition whose stored form is empty is reported as failed although
    it takes place. *)
Definition spec_add (packed : list N -> list N) (fs : files) (path data : list N) : addcode * files :=
  let n := map (fun c => if c =? 92 then 47 else c) path in
  if mem n fs then (AddExists, fs)
  else ((if nlen (packed data) =? 0 then AddFailed else AddOk), fs ++ [(n, data)]).

Fixpoint spec_run (packed : list N -> list N) (fs : files) (ops : list addop) : list addcode * files :=
  match ops with
  | [] => ([], fs)
  | (_, path, data) :: ops' =>
      let '(c, fs') := spec_add packed fs path data in
      let '(cs, fs'') := spec_run packed fs' ops' in (c :: cs, fs'')
  end.

(** Bytes taken by the local headers with contents, and by the directory. *)
Definition area (packed : list N -> list N) (fs : files) : N :=
  fold_right (fun f s => 30 + nlen (fst f) + nlen (packed (snd f)) + s) 0 fs.
Definition directory (fs : files) : N := fold_right (fun f s => 46 + nlen (fst f) + s) 0 fs.

(** What the format limits of the implementation require of a list of files: names of 1 to
    1024 bytes not starting with NUL, fewer than 19280 files, the whole archive below 4 GiB
    (minus the slack the reader needs), and the directory must not start at the one
    offset (101010256) that looks like the end record's signature. *)
Record fits (packed : list N -> list N) (fs : files) : Prop := {
  fit_names : Forall (fun f => 1 <= nlen (fst f) <= 1024 /\
                               match fst f with c :: _ => c <> 0 | [] => False end) fs;
  fit_count : nlen fs < 19280;
  fit_offset : area packed fs <> 101010256;
  fit_size : area packed fs + directory fs + 22 <= 4294967232 }.

(** Every intermediate archive of a run fits. *)
Fixpoint reachable_fit (packed : list N -> list N) (fs : files) (ops : list addop) : Prop :=
  match ops with
  | [] => True
  | (_, path, data) :: ops' =>
      fits packed (snd (spec_add packed fs path data)) /\ reachable_fit packed (snd (spec_add packed fs path data)) ops'
  end.
