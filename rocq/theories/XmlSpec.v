(** What an XML document is and what a reader has to give back; independent of the functions of
    [XmlModel], only its type of trees is used. *)
From Coq Require Import String List NArith ZArith Bool.
From Verif Require Import Bytes Txt UtfSpec XmlModel.
Import ListNotations.
Open Scope N_scope.

(** Line ends: CR LF, LF CR and a lone CR become LF. *)
Inductive newlines : list N -> list N -> Prop :=
| nl_nil : newlines [] []
| nl_crlf r r' : newlines r r' -> newlines (13 :: 10 :: r) (10 :: r')
| nl_cr r r' : (forall t, r <> 10 :: t) -> newlines r r' -> newlines (13 :: r) (10 :: r')
| nl_lfcr r r' : newlines r r' -> newlines (10 :: 13 :: r) (10 :: r')
| nl_lf r r' : (forall t, r <> 13 :: t) -> newlines r r' -> newlines (10 :: r) (10 :: r')
| nl_other c r r' : c <> 13 -> c <> 10 -> newlines r r' -> newlines (c :: r) (c :: r').

(** Names: a letter, ':', '_' or a byte of a UTF-8 sequence, then also digits, '.' and '-'. *)
Definition letter (c : N) : Prop := 128 <= c \/ 65 <= c <= 90 \/ 97 <= c <= 122 \/ c = 58 \/ c = 95.
Definition in_name (c : N) : Prop := letter c \/ 48 <= c <= 57 \/ c = 46 \/ c = 45.
Definition xml_name (n : list N) : Prop := exists c r, n = c :: r /\ letter c /\ Forall in_name r.
Definition white (c : N) : Prop := c = 32 \/ 9 <= c <= 13.
Definition within (sub s : list N) : Prop := exists a b, s = a ++ sub ++ b.

(** Trees that have an XML text. *)
Inductive tree : node -> Prop :=
| t_elem n attrs kids :
    xml_name n -> NoDup (map fst attrs) -> Forall (fun a => xml_name (fst a) /\ ~ In 0 (snd a)) attrs ->
    Forall tree kids -> tree (Elem n attrs kids)
| t_text v : ~ In 0 v -> tree (Text v)
| t_cdata v : ~ In 0 v -> ~ within (T"]]>") v -> tree (Cdata v)
| t_comment v : ~ In 0 v -> ~ within (T"-->") v -> tree (Comment v)
| t_unknown v : ~ In 0 v -> ~ In 62 v -> (forall r, v <> T"--" ++ r) -> (forall r, v <> T"[CDATA[" ++ r) -> tree (Unknown v).

(** How deep elements that are not empty are nested. *)
Inductive nested : node -> nat -> Prop :=
| nd_empty n attrs : nested (Elem n attrs []) 0
| nd_elem n attrs kids d : kids <> [] -> nested_list kids d -> nested (Elem n attrs kids) (S d)
| nd_text v : nested (Text v) 0
| nd_cdata v : nested (Cdata v) 0
| nd_comment v : nested (Comment v) 0
| nd_decl v : nested (Decl v) 0
| nd_unknown v : nested (Unknown v) 0
with nested_list : list node -> nat -> Prop :=
| nd_nil : nested_list [] 0
| nd_cons k r a b : nested k a -> nested_list r b -> nested_list (k :: r) (Nat.max a b).

(** What is read where [k] was written: neighbouring texts become one, texts of white space only are
    lost, line ends become LF. *)
Inductive same_text : list N -> list node -> Prop :=
| st_lost p : Forall white p -> same_text p []
| st_kept p v : ~ Forall white p -> newlines p v -> same_text p [Text v].
Inductive reads : node -> node -> Prop :=
| rd_elem n attrs attrs' kids kids' :
    Forall2 (fun a b => fst a = fst b /\ newlines (snd a) (snd b)) attrs attrs' ->
    reads_list [] kids kids' -> reads (Elem n attrs kids) (Elem n attrs' kids')
| rd_cdata v v' : newlines v v' -> reads (Cdata v) (Cdata v')
| rd_comment v v' : newlines v v' -> reads (Comment v) (Comment v')
| rd_unknown v v' : newlines v v' -> reads (Unknown v) (Unknown v')
(** [reads_list p kids kids']: [p] is the text just in front of [kids]. *)
with reads_list : list N -> list node -> list node -> Prop :=
| rl_nil p t : same_text p t -> reads_list p [] t
| rl_text p v r r' : reads_list (p ++ v) r r' -> reads_list p (Text v :: r) r'
| rl_node p t k k' r r' :
    (forall v, k <> Text v) -> same_text p t -> reads k k' -> reads_list [] r r' ->
    reads_list p (k :: r) (t ++ k' :: r').

(** Trees nothing of which is changed by this. *)
Definition no_cr (v : list N) : Prop := ~ In 13 v.
Definition is_text (k : node) : Prop := exists v, k = Text v.
Fixpoint apart (kids : list node) : Prop :=
  match kids with
  | a :: ((b :: _) as r) => (is_text a -> ~ is_text b) /\ apart r
  | _ => True
  end.
Inductive plain : node -> Prop :=
| p_elem n attrs kids : Forall (fun a => no_cr (snd a)) attrs -> Forall plain kids -> apart kids -> plain (Elem n attrs kids)
| p_text v : no_cr v -> ~ Forall white v -> plain (Text v)
| p_cdata v : no_cr v -> plain (Cdata v)
| p_comment v : no_cr v -> plain (Comment v)
| p_unknown v : no_cr v -> plain (Unknown v).

(** Values in XML text: bytes, the five named references and numbered references in decimal and
    hexadecimal digits (leading zeros allowed); what they stand for. *)
Definition digit_of (c : N) : N := if c <=? 57 then c - 48 else if c <=? 70 then c - 55 else c - 87.
Definition number (base : N) (ds : list N) : N := fold_left (fun a c => a * base + digit_of c) ds 0.
Inductive item := Raw (c : N) | Named (name : list N) (c : N) | Dec (ds : list N) | Hex (ds : list N).
Definition written (i : item) : list N :=
  match i with
  | Raw c => [c]
  | Named n _ => [38] ++ n ++ [59]
  | Dec ds => [38; 35] ++ ds ++ [59]
  | Hex ds => [38; 35; 120] ++ ds ++ [59]
  end.
Definition meant (i : item) : list N :=
  match i with Raw c => [c] | Named _ c => [c] | Dec ds => enc8_1 (number 10 ds) | Hex ds => enc8_1 (number 16 ds) end.
Definition dec_digit (c : N) : Prop := 48 <= c <= 57.
Definition hex_digit (c : N) : Prop := 48 <= c <= 57 \/ 65 <= c <= 70 \/ 97 <= c <= 102.
Definition item_ok (i : item) : Prop :=
  match i with
  | Raw c => c <> 0 /\ c <> 13 /\ c <> 38
  | Named n c => In (n, c) [(T"lt", 60); (T"gt", 62); (T"amp", 38); (T"quot", 34); (T"apos", 39)]
  | Dec ds => ds <> [] /\ Forall dec_digit ds /\ number 10 ds <> 0 /\ scalar (number 10 ds)
  | Hex ds => ds <> [] /\ Forall hex_digit ds /\ number 16 ds <> 0 /\ scalar (number 16 ds)
  end.
