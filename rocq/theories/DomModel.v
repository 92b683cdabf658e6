(** Model of the XML nodes of the build with Xerces (the default, CMakeLists.txt:9): XMLLib/XMLFileNodeImpl.cpp, and
    the values by path of XMLLib/XMLFileImpl.cpp:647-895.

    Simplified: a node of the document is an element with its attributes and children, or a text, a CDATA section or
    a comment; a node that the caller has is the path of child numbers to it.  The calls of Xerces are modelled by what
    the DOM standard says (insertBefore, appendChild, removeChild, getNextSibling); a removed node has no sibling.
    The order of attributes is not modelled.  All nodes a caller has are elements (the parent of the root, the
    document itself, is left out).  The base64 forms of CDATA, names with namespaces and line numbers are left out. *)
From Coq Require Import List NArith ZArith Bool Arith.
From Verif Require Import Txt.
Import ListNotations.

Definition str := list N.
Fixpoint str_eqb (a b : str) : bool :=
  match a, b with
  | [], [] => true
  | x :: a', y :: b' => N.eqb x y && str_eqb a' b'
  | _, _ => false
  end.

Inductive dom :=
| Elem (name : str) (attrs : list (str * str)) (kids : list dom)
| Text (v : str)
| CData (v : str)
| Comment (v : str).

(** [DThrow]: a [DOMException] leaves the library. *)
Inductive dres (A : Type) := DOk (a : A) | DThrow.
Arguments DOk {A}. Arguments DThrow {A}.

(** Error codes (IXMLFile.h:22-31, VectorworksMVR.h:121-129). *)
Definition NoError : N := 0.
Definition Failed : N := 1.
Definition InvalidArg : N := 15.
Definition NoAttribute : N := 103.
Definition ElementNotFound : N := 105.
Definition BadArrayIndex : N := 106.
Definition BadName : N := 107.

Definition kids_of (n : dom) : list dom := match n with Elem _ _ k => k | _ => [] end.
Definition attrs_of (n : dom) : list (str * str) := match n with Elem _ a _ => a | _ => [] end.
Definition name_of (n : dom) : str := match n with Elem m _ _ => m | _ => [] end.
Definition with_kids (n : dom) (k : list dom) : dom := match n with Elem m a _ => Elem m a k | _ => n end.
Definition with_attrs (n : dom) (a : list (str * str)) : dom := match n with Elem m _ k => Elem m a k | _ => n end.

Definition is_elem (n : dom) : bool := match n with Elem _ _ _ => true | _ => false end.
Definition is_text (n : dom) : bool := match n with Text _ => true | _ => false end.
Definition is_cdata (n : dom) : bool := match n with CData _ => true | _ => false end.

(** [DOMNode::getNodeValue]: null for an element, which is the empty text. *)
Definition node_value (n : dom) : str :=
  match n with Elem _ _ _ => [] | Text v => v | CData v => v | Comment v => v end.

(** ** Values, CDATA, attributes *)

(** [GetNodeValue] (63-87): of the first child, whatever it is. *)
Definition get_value (k : list dom) : str * N :=
  match k with [] => ([], Failed) | c :: _ => (node_value c, NoError) end.

(** [SetNodeValue] (89-128): the first text child is changed, or a text is appended. *)
Fixpoint set_text (v : str) (k : list dom) : option (list dom) :=
  match k with
  | [] => None
  | c :: k' => if is_text c then Some (Text v :: k')
               else match set_text v k' with Some r => Some (c :: r) | None => None end
  end.
Definition set_value (v : str) (k : list dom) : list dom :=
  match set_text v k with Some r => r | None => k ++ [Text v] end.

(** [GetNodeCDATA] (270-302): the first CDATA section. *)
Fixpoint get_cdata (k : list dom) : str * N :=
  match k with
  | [] => ([], ElementNotFound)
  | CData v :: _ => (v, NoError)
  | _ :: k' => get_cdata k'
  end.

(** [DeleteNodeCDATA] (414-439): after a removal the loop goes on with the sibling of the removed node, which has
    none. *)
Fixpoint delete_cdata (k : list dom) : list dom :=
  match k with
  | [] => []
  | c :: k' => if is_cdata c then k' else c :: delete_cdata k'
  end.

(** [SetNodeCDATA] (363-382). *)
Definition set_cdata (v : str) (k : list dom) : list dom := delete_cdata k ++ [CData v].

(** [FindAttribute] (166-191). *)
Fixpoint find_attr (a : str) (l : list (str * str)) : option str :=
  match l with [] => None | (n, v) :: l' => if str_eqb n a then Some v else find_attr a l' end.

(** [GetNodeAttributeValue] (193-216). *)
Definition get_attr (a : str) (l : list (str * str)) : str * N :=
  match find_attr a l with Some v => (v, NoError) | None => ([], NoAttribute) end.

(** [SetNodeAttributeValue] (218-247): a new attribute is made with [setAttribute], which throws for a name that is not
    valid. *)
Fixpoint change_attr (a v : str) (l : list (str * str)) : list (str * str) :=
  match l with [] => [] | (n, w) :: l' => if str_eqb n a then (n, v) :: l' else (n, w) :: change_attr a v l' end.
Definition set_attr (valid : str -> bool) (a v : str) (l : list (str * str)) : dres (list (str * str)) :=
  match find_attr a l with
  | Some _ => DOk (change_attr a v l)
  | None => if valid a then DOk (l ++ [(a, v)]) else DThrow
  end.

(** [DeleteNodeAttribute] (249-268). *)
Fixpoint remove_attr (a : str) (l : list (str * str)) : list (str * str) :=
  match l with [] => [] | (n, w) :: l' => if str_eqb n a then l' else (n, w) :: remove_attr a l' end.
Definition delete_attr (a : str) (l : list (str * str)) : list (str * str) * N :=
  match find_attr a l with Some _ => (remove_attr a l, NoError) | None => (l, NoAttribute) end.

(** [GetNodeAttributes] (913-934). *)
Definition attr_names (l : list (str * str)) : list str := map fst l.

(** ** Going through the children: numbers of children *)

(** The loop of [GetFirstChildNode] (655-704) and [GetNextSiblingNode] (757-806). *)
Fixpoint next_in (k : list dom) (pos : nat) : option nat :=
  match k with [] => None | c :: k' => if is_elem c then Some pos else next_in k' (S pos) end.
Definition first_child (k : list dom) : option nat := next_in k 0.
Definition next_sibling (k : list dom) (pos : nat) : option nat := next_in (skipn (S pos) k) (S pos).

(** The loop of [GetLastChildNode] (706-755) and [GetPrevSiblingNode] (808-854). *)
Fixpoint prev_from (k : list dom) (n : nat) : option nat :=
  match n with
  | O => None
  | S m => match nth_error k m with
           | Some c => if is_elem c then Some m else prev_from k m
           | None => prev_from k m
           end
  end.
Definition last_child (k : list dom) : option nat := prev_from k (length k).
Definition prev_sibling (k : list dom) (pos : nat) : option nat := prev_from k pos.

(** The loop of [GetChildNode] with a name and an index (464-535): the child, or how many were counted. *)
Fixpoint child_loop (name : str) (idx : nat) (k : list dom) (pos sub : nat) : nat + nat :=
  match k with
  | [] => inr sub
  | c :: k' =>
    if is_elem c && str_eqb name (name_of c) then
      if Nat.eqb sub idx then inl pos else child_loop name idx k' (S pos) (S sub)
    else child_loop name idx k' (S pos) sub
  end.

(** [GetChildNode] (464-535): the error for a bad name is overwritten when nothing was found. *)
Definition get_child (valid : str -> bool) (name : str) (idx : nat) (k : list dom) : nat + N :=
  match (if valid name then child_loop name idx k 0 0 else inr 0) with
  | inl p => inl p
  | inr sub => inr (if Nat.eqb sub 0 then ElementNotFound else BadArrayIndex)
  end.

(** [GetChildNode] with an attribute (537-614): the number counted stays zero. *)
Fixpoint child_attr_loop (name a v : str) (k : list dom) (pos : nat) : option nat :=
  match k with
  | [] => None
  | c :: k' =>
    if is_elem c && str_eqb name (name_of c)
       && (match find_attr a (attrs_of c) with Some w => str_eqb v w | None => false end)
    then Some pos else child_attr_loop name a v k' (S pos)
  end.
Definition get_child_attr (valid : str -> bool) (name a v : str) (k : list dom) : nat + N :=
  match (if valid name then child_attr_loop name a v k 0 else None) with
  | Some p => inl p
  | None => inr ElementNotFound
  end.

(** [FindChildNode] (856-911). *)
Fixpoint find_loop (name : str) (k : list dom) (pos : nat) : option nat :=
  match k with
  | [] => None
  | c :: k' => if is_elem c && str_eqb name (name_of c) then Some pos else find_loop name k' (S pos)
  end.
Definition find_child (name : str) (k : list dom) : nat + N :=
  match find_loop name k 0 with Some p => inl p | None => inr ElementNotFound end.

(** ** Adding and deleting children *)

(** Nodes that count for an index (1002-1007). *)
Definition counts_for_index (c : dom) : bool := match c with Text _ => false | Comment _ => false | _ => true end.

Definition insert_at (p : nat) (c : dom) (k : list dom) : list dom := firstn p k ++ c :: skipn p k.

(** The loop of [CreateChildNodeBeforeIndex] (994-1018): where to insert. *)
Fixpoint insert_pos (k : list dom) (pos cnt idx : nat) : option nat :=
  match k with
  | [] => None
  | c :: k' =>
    if negb (counts_for_index c) then insert_pos k' (S pos) cnt idx
    else if Nat.eqb cnt idx then Some pos
    else insert_pos k' (S pos) (S cnt) idx
  end.

(** [CreateChildNodeBeforeIndex] (943-1049); [None] as index is [size_t(-1)], used by [CreateChildNode] (441-444).
    Gives the children and the number of the new one. *)
Definition create_before (valid : str -> bool) (name : str) (idx : option nat) (k : list dom) : (list dom * nat) + N :=
  if valid name then
    let c := Elem name [] [] in
    match match idx with Some i => insert_pos k 0 0 i | None => None end with
    | Some p => inl (insert_at p c k, p)
    | None => inl (k ++ [c], length k)
    end
  else inr BadName.

(** The loop of [AddCopyOfExistingNodeBeforeIndex] (1073-1098): the list of children is read anew in every step, its
    length is not; the loop does not stop after the insertion. *)
Fixpoint copy_loop (steps pos cnt idx : nat) (c : dom) (k : list dom) : list dom :=
  match steps with
  | O => k
  | S steps' =>
    match nth_error k pos with
    | None => k
    | Some d =>
      if negb (counts_for_index d) then copy_loop steps' (S pos) cnt idx c k
      else copy_loop steps' (S pos) (S cnt) idx c (if Nat.eqb cnt idx then insert_at pos c k else k)
    end
  end.

(** [AddCopyOfExistingNodeBeforeIndex] (1051-1143): always without error. *)
Definition copy_before (c : dom) (idx : nat) (k : list dom) : list dom :=
  if Nat.ltb idx (length k) then copy_loop (length k) 0 0 idx c k else k ++ [c].

(** [DeleteNode] (130-164) of the child [p]: with the text that follows it. *)
Definition delete_node (p : nat) (k : list dom) : list dom :=
  firstn p k ++ match skipn (S p) k with
                | c :: r => if is_text c then r else c :: r
                | [] => []
                end.

(** ** Values by path *)

(** [Tokenize] (XMLFileImpl.cpp:647-686) with one separator and a quote; [cur] is collected reversed. *)
Fixpoint tokenize_loop (sep quote : N) (s : str) (cur : str) (stopped : bool) : list str :=
  match s with
  | [] => match cur with [] => [] | _ => [rev cur] end
  | ch :: s' =>
    let stopped' := if N.eqb ch quote then negb stopped else stopped in
    if negb stopped' && N.eqb ch sep then rev cur :: tokenize_loop sep quote s' [] stopped'
    else tokenize_loop sep quote s' (ch :: cur) stopped'
  end.
Definition tokenize (sep : N) (s : str) : list str := tokenize_loop sep 39 s [] false.

(** [TXString::Find] of a character. *)
Fixpoint find_char (ch : N) (s : str) (pos : nat) : option nat :=
  match s with [] => None | x :: s' => if N.eqb x ch then Some pos else find_char ch s' (S pos) end.

(** [TXString::Mid]. *)
Definition mid (s : str) (from len : nat) : str := firstn len (skipn from s).

(** [TXString::atoi] (GSString.cpp:2019) for an index: the digits at the start, without spaces and sign before them
    and without overflow. *)
Fixpoint digits (s : str) (acc : nat) : nat :=
  match s with
  | [] => acc
  | x :: s' => if (N.leb 48 x && N.leb x 57)%bool then digits s' (acc * 10 + N.to_nat (x - 48)) else acc
  end.

(** What a token asks for (723-771). *)
Inductive ask :=
| AttrOf (a : str)                      (* $name *)
| Child (name : str) (idx : nat)        (* name[3] and name *)
| ChildWith (name a v : str).           (* name[$attr='value'] *)

(** [TXString::Trim], for spaces. *)
Fixpoint drop_spaces (s : str) : str :=
  match s with x :: s' => if N.eqb x 32 then drop_spaces s' else s | [] => [] end.
Definition trim (s : str) : str := rev (drop_spaces (rev (drop_spaces s))).

(** [GetAt(0) == ch]. *)
Definition starts (ch : N) (s : str) : bool := match s with x :: _ => N.eqb x ch | [] => false end.

(** XMLFileImpl.cpp:756-759. *)
Definition strip_quotes (v : str) : str :=
  if Nat.ltb 2 (length v) && starts 39 v && starts 39 (rev v) then mid v 1 (length v - 2) else v.

(** The text between the brackets (XMLFileImpl.cpp:741-768). *)
Definition parse_inner (name inner : str) : ask :=
  if starts 36 inner then
    match tokenize 61 inner with
    | [x; y] =>
      let a := tl (trim x) in
      let v := strip_quotes (trim y) in
      match a, v with
      | _ :: _, _ :: _ => ChildWith name a v
      | _, _ => Child name 0
      end
    | _ => Child name 0
    end
  else Child name (digits inner 0).

(** DoSimpleNode (XMLFileImpl.cpp:723-784). *)
Definition parse_token (t : str) : ask :=
  if starts 36 t then AttrOf (tl t)
  else
    match find_char 91 t 0, find_char 93 t 0 with
    | Some b, Some e =>
      if Nat.ltb (S b) e then parse_inner (firstn b t) (mid t (S b) (e - b - 1)) else Child t 0
    | _, _ => Child t 0
    end.

(** The node at a path of child numbers, and a document with that node changed. *)
Fixpoint node_at (n : dom) (p : list nat) : option dom :=
  match p with
  | [] => Some n
  | i :: p' => match nth_error (kids_of n) i with Some c => node_at c p' | None => None end
  end.
Fixpoint change_nth (i : nat) (f : dom -> dom) (l : list dom) : list dom :=
  match l, i with
  | [], _ => []
  | c :: l', O => f c :: l'
  | c :: l', S i' => c :: change_nth i' f l'
  end.
Fixpoint change_at (n : dom) (p : list nat) (f : dom -> dom) : dom :=
  match p with
  | [] => f n
  | i :: p' => with_kids n (change_nth i (fun c => change_at c p' f) (kids_of n))
  end.

Section Simple.
Variable valid : str -> bool.

(** The part of the loop of [DoSimpleNode] (XMLFileImpl.cpp:690-824) below the node [at_]: the tokens still to do.
    Gives the document, the node reached (none after an attribute), the value and the error. *)
Fixpoint simple_loop (write : bool) (ts : list str) (doc : dom) (at_ : list nat) (value : str) :
  dres (dom * option (list nat) * str * N) :=
  match ts with
  | [] => DOk (doc, Some at_, value, NoError)
  | t :: ts' =>
    match node_at doc at_ with
    | None => DOk (doc, None, value, Failed)   (* does not happen *)
    | Some n =>
      match parse_token t with
      | AttrOf a =>
        if write then
          match set_attr valid a value (attrs_of n) with
          | DOk l => DOk (change_at doc at_ (fun m => with_attrs m l), None, value, NoError)
          | DThrow => DThrow
          end
        else let '(v, e) := get_attr a (attrs_of n) in DOk (doc, None, v, e)
      | q =>
        let '(name, r) := match q with
                          | Child name idx => (name, get_child valid name idx (kids_of n))
                          | ChildWith name a v => (name, get_child_attr valid name a v (kids_of n))
                          | AttrOf a => (a, inr Failed)
                          end in
        match r with
        | inl p => simple_loop write ts' doc (at_ ++ [p]) value
        | inr e =>
          if write && (N.eqb e ElementNotFound || N.eqb e BadArrayIndex) then
            match create_before valid name None (kids_of n) with
            | inl (k, p) => simple_loop write ts' (change_at doc at_ (fun m => with_kids m k)) (at_ ++ [p]) value
            | inr e' => DOk (doc, None, value, e')
            end
          else DOk (doc, None, value, e)
        end
      end
    end
  end.

(** [DoSimpleNode] (690-824) without a node to start from: the first token must be the name of the root. *)
Definition do_simple (write : bool) (path : str) (doc : dom) (value : str) : dres (dom * str * N) :=
  match tokenize 47 path with
  | [] => DOk (doc, value, InvalidArg)
  | t :: ts =>
    if str_eqb t (name_of doc) then
      match simple_loop write ts doc [] value with
      | DThrow => DThrow
      | DOk (doc1, at1, value1, e) =>
        match at1 with
        | Some p =>
          if N.eqb e NoError then
            if write then DOk (change_at doc1 p (fun m => with_kids m (set_value value1 (kids_of m))), value1, e)
            else match node_at doc1 p with
                 | Some m => DOk (doc1, fst (get_value (kids_of m)), e)
                 | None => DOk (doc1, value1, e)
                 end
          else DOk (doc1, value1, e)
        | None => DOk (doc1, value1, e)
        end
      end
    else DOk (doc, value, ElementNotFound)
  end.

(** [SetSimpleValue] (868-872) and [GetSimpleValue] (839-844, 853-861): the default if there was an error. *)
Definition set_simple (path value : str) (doc : dom) : dres (dom * N) :=
  match do_simple true path doc value with DOk (d, _, e) => DOk (d, e) | DThrow => DThrow end.
Definition get_simple (path : str) (doc : dom) (dflt : str) : dres str :=
  match do_simple false path doc [] with
  | DOk (_, v, e) => DOk (if N.eqb e NoError then v else dflt)
  | DThrow => DThrow
  end.
End Simple.
