(** Model of the interface objects through which the library is used: VectorworksMVR.h ([VWIID] 31-85, error codes
    113-139, [VCOMPtr] 148-199), Prefix/StdAfx.h ([VCOMImmediateImpl] 141-181, [VCOMImpl] 184-220), ModuleMain.cpp
    ([VWQueryInterface] 95-258), and the functions of src/Implementation, src/Wrapper and src/XMLLib that give an
    object to the caller (VcomTable.v).

    Simplified: a pointer to an object is its number in the heap; the objects behind the interface objects (the data
    of the scene or of the fixture) are numbers, and what a list or a link of such an object holds is a parameter
    ([world]) that does not change while objects are handed out.  A parent ([fParent]) is never set in the library
    and is left out.  [ASSERTN] does nothing. *)
From Coq Require Import List String NArith Bool Arith.
From Verif Require Import VcomDefs VcomTable.
Import ListNotations.
Local Open Scope string_scope.
Local Open Scope list_scope.

(** Outcomes: [VUB] undefined behaviour in the library, [VThrow] an exception leaves the library, [VNull] the caller
    calls through an empty pointer, [VBad] not a program (a variable that does not exist or has another type). *)
Inductive vres (A : Type) := VOk (a : A) | VUB | VThrow | VNull | VBad.
Arguments VOk {A}. Arguments VUB {A}. Arguments VThrow {A}. Arguments VNull {A}. Arguments VBad {A}.
Definition vbind {A B} (x : vres A) (f : A -> vres B) : vres B :=
  match x with VOk a => f a | VUB => VUB | VThrow => VThrow | VNull => VNull | VBad => VBad end.
Notation "'do!' x <- e ; f" := (vbind e (fun x => f)) (at level 200, x pattern, e at level 100, f at level 200, right associativity).

(** ** Identifiers *)

(** The members in the order in which [operator<] compares them. *)
Definition members (i : iid) : list N := data1 i :: data2 i :: data3 i :: firstn 8 (data4 i).

(** [VWIID::operator==] (VectorworksMVR.h:48-54): all 16 bytes. *)
Fixpoint list_eqb (a b : list N) : bool :=
  match a, b with
  | [], [] => true
  | x :: a', y :: b' => N.eqb x y && list_eqb a' b'
  | _, _ => false
  end.
Definition iid_eqb (a b : iid) : bool := list_eqb (members a) (members b).

(** [VWIID::operator<] (VectorworksMVR.h:56-83): [isLess] and [isEqual] start true; each member is looked at only while
    [isEqual] holds. *)
Fixpoint less_loop (a b : list N) (is_less is_equal : bool) : bool * bool :=
  match a, b with
  | x :: a', y :: b' =>
    if is_equal then
      let eq := N.eqb x y in
      less_loop a' b' (if negb eq then N.ltb x y else is_less) eq
    else (is_less, is_equal)
  | _, _ => (is_less, is_equal)
  end.
Definition iid_ltb (a b : iid) : bool :=
  let '(is_less, is_equal) := less_loop (members a) (members b) true true in is_less && negb is_equal.

(** ** The heap *)

(** The own pointer of an interface object: null, never written, or set. *)
Inductive ptr := Null | Indet | To (p : nat).
Record object := Obj { o_class : string; o_refs : N; o_ptr : ptr }.
(** [None]: the object was deleted. *)
Definition heap := list (option object).

Fixpoint upd {A} (n : nat) (x : A) (l : list A) : list A :=
  match n, l with
  | _, [] => []
  | O, _ :: l' => x :: l'
  | Datatypes.S n', y :: l' => y :: upd n' x l'
  end.

(** Use of an object. *)
Definition deref (h : heap) (i : nat) : vres object :=
  match nth_error h i with Some (Some o) => VOk o | _ => VUB end.

(** [AddRef] (StdAfx.h:150, 193): [fRefCnt] is a [uint32_t]. *)
Definition add_ref (h : heap) (i : nat) : vres heap :=
  do! o <- deref h i;
  VOk (upd i (Some (Obj (o_class o) ((o_refs o + 1) mod 2 ^ 32)%N (o_ptr o))) h).

(** [Release] (StdAfx.h:151-168 and 194-206): the object deletes itself when the count reaches zero.  With a count of
    zero [VCOMImpl] deletes as well, [VCOMImmediateImpl] (only [CRawOSFileImpl]) does nothing. *)
Definition release (h : heap) (i : nat) : vres heap :=
  do! o <- deref h i;
  if N.ltb 0 (o_refs o) then
    let n := (o_refs o - 1)%N in
    VOk (upd i (if N.eqb n 0 then None else Some (Obj (o_class o) n (o_ptr o))) h)
  else if String.eqb (o_class o) "CRawOSFileImpl" then VOk h else VOk (upd i None h).

(** [if (p) p->Release()]. *)
Definition release_opt (h : heap) (p : option nat) : vres heap :=
  match p with None => VOk h | Some i => release h i end.
Definition add_ref_opt (h : heap) (p : option nat) : vres heap :=
  match p with None => VOk h | Some i => add_ref h i end.

(** ** Making objects *)

Fixpoint assoc {A} (k : string) (l : list (string * A)) : option A :=
  match l with [] => None | (k', a) :: l' => if String.eqb k k' then Some a else assoc k l' end.

Definition iid_of (name : string) : option iid := assoc name iids.

(** [VWQueryInterface] (ModuleMain.cpp:99-243): the first identifier of the chain that is equal. *)
Fixpoint class_in (l : list (string * string)) (i : iid) : option string :=
  match l with
  | [] => None
  | (n, c) :: l' =>
    match iid_of n with
    | Some j => if iid_eqb i j then Some c else class_in l' i
    | None => class_in l' i
    end
  end.
Definition class_of (i : iid) : option string := class_in factory i.

(** The constructors of these classes do not write the own pointer (CGdtfCRI.cpp, CGdtfCRIGroup.cpp,
    CGdtfDmxProfile.cpp, CGdtfMacroDMX.cpp, CGdtfMacroDMXStep.cpp, CGdtfMacroDMXValue.cpp, CGdtfMacroVisual.cpp,
    CGdtfMacroVisualStep.cpp, CGdtfMacroVisualValue.cpp, CGdtfPoint.cpp; the others set it to [nullptr]). *)
Definition no_init : list string :=
  ["CGdtfCRIImpl"; "CGdtfCRIGroupImpl"; "CGdtfDMXProfileImpl"; "CGdtfMacroDMXImpl"; "CGdtfMacroDMXStepImpl";
   "CGdtfMacroDMXValueImpl"; "CGdtfMacroVisualImpl"; "CGdtfMacroVisualStepImpl"; "CGdtfMacroVisualValueImpl";
   "CGdtfPointImpl"].
Definition fresh_ptr (c : string) : ptr := if existsb (String.eqb c) no_init then Indet else Null.

(** Error codes (VectorworksMVR.h:113-139). *)
Definition kNoError : N := 0.
Definition kNotInitialized : N := 4.
Definition kNoInstance : N := 16.

(** [VWQueryInterface] (ModuleMain.cpp:95-258).  [out] is the pointer parameter: [None] if it is null itself,
    otherwise what it points to, which is overwritten without being released. *)
Definition query_interface (h : heap) (i : iid) (out : option (option nat)) :
  vres (heap * option (option nat) * N) :=
  match class_of i with
  | None => VOk (h, out, match out with None => kNotInitialized | Some _ => kNoInstance end)
  | Some c =>
    let h1 := h ++ [Some (Obj c 0 (fresh_ptr c))] in
    match out with
    | None => VOk (h1, None, kNotInitialized)
    | Some _ => do! h2 <- add_ref h1 (List.length h); VOk (h2, Some (Some (List.length h)), kNoError)
    end
  end.

(** ** Functions that give out an object *)

(** What the data objects hold: the list, the link and the new object that a function of the given name reads from
    the data object of the given number. *)
Record world := World {
  w_list : string -> nat -> list nat;
  w_one : string -> nat -> option nat;
  w_new : string -> nat -> nat }.

(** The check of the index. *)
Definition refuses (g : guard) (at_ size : nat) : bool :=
  match g with
  | AtGeSize => Nat.leb size at_
  | SizeLtAt => Nat.ltb size at_
  | AtGtSize => Nat.ltb size at_
  end.

(** Reading a list behind the check. *)
Definition read_at {A} (g : guard) (r : reader) (err : N) (l : list A) (at_ : nat) : vres (A + N) :=
  if refuses g at_ (List.length l) then VOk (inr err)
  else match nth_error l at_ with
       | Some p => VOk (inl p)
       | None => match r with Brackets => VUB | Throws => VThrow end
       end.

(** The data object that the function will put into the new interface object, or the error it returns: the check of
    the own pointer, then the list, link or new object. *)
Definition lookup (W : world) (g : getter) (own : ptr) (at_ : nat) : vres (ptr + N) :=
  let go (d : nat) : vres (ptr + N) :=
    match g_kind g with
    | KAt gd r err =>
      do! x <- read_at gd r err (w_list W (g_name g) d) at_;
      VOk (match x with inl p => inl (To p) | inr e => inr e end)
    | KOne chk =>
      VOk (match w_one W (g_name g) d, chk with
           | Some p, _ => inl (To p)
           | None, Some e => inr e
           | None, None => inl Null
           end)
    | KNew => VOk (inl (To (w_new W (g_name g) d)))
    end in
  match g_own g, own with
  | Embedded, To d => go d
  | Embedded, _ => go 0
  | _, Indet => VUB
  | Checks e, Null => VOk (inr e)
  | Unchecked, Null => VUB
  | _, To d => go d
  end.

(** [VWQueryInterface(IID_..., &p)], [static_cast<C...Impl*>(p)] and [SetPointer] on the result: the number of the new
    object. *)
Definition make (h : heap) (g : getter) (p : ptr) : vres (heap * nat) :=
  match iid_of (g_iid g) with
  | None => VBad
  | Some i =>
    do! (h1, out, e) <- query_interface h i (Some None);
    match out with
    | Some (Some n) =>
      do! o <- deref h1 n;
      if String.eqb (o_class o) (g_cast g)
      then VOk (upd n (Some (Obj (o_class o) (o_refs o) p)) h1, n)
      else VUB
    | _ => VUB
    end
  end.

(** A call of [g] on the object [this]; [out] is what the parameter points to before.  Gives the heap, what the
    parameter points to afterwards, and the error code. *)
Definition call (W : world) (h : heap) (this : nat) (g : getter) (at_ : nat) (out : option nat) :
  vres (heap * option nat * N) :=
  do! o <- deref h this;
  if negb (String.eqb (o_class o) (g_class g)) then VUB else
  do! x <- lookup W g (o_ptr o) at_;
  match g_order g, x with
  | NewFirst, inl p =>
    do! (h1, n) <- make h g p;
    do! h2 <- release_opt h1 out;
    VOk (h2, Some n, kNoError)
  | NewFirst, inr e =>
    if g_clear g then do! h1 <- release_opt h out; VOk (h1, None, e) else VOk (h, out, e)
  | ReadFirst, _ =>
    do! h1 <- release_opt h out;
    match x with
    | inl p => do! (h2, n) <- make h1 g p; VOk (h2, Some n, kNoError)
    | inr e => VOk (h1, None, e)
    end
  | ReleaseFirst, inr e => VOk (h, out, e)
  | ReleaseFirst, inl _ =>
    do! h1 <- release_opt h out;
    do! o1 <- deref h1 this;
    do! y <- lookup W g (o_ptr o1) at_;
    match y with
    | inl p => do! (h2, n) <- make h1 g p; VOk (h2, Some n, kNoError)
    | inr e => VOk (h1, None, e)
    end
  | NoRelease, inl p => do! (h1, n) <- make h g p; VOk (h1, Some n, kNoError)
  | NoRelease, inr e => VOk (h, out, e)
  end.

(** ** Programs with [VCOMPtr] variables *)

(** A variable of type [VCOMPtr<v_type>]. *)
Record var := Var { v_type : string; v_ptr : option nat }.
Record state := State { st_heap : heap; st_vars : list var }.

(** What a caller can do: declare a variable (empty; from an identifier; as a copy), [operator=] with another variable
    or with a null pointer, [Query], [Release], call a function that gives an object with [&w] as parameter, and leave
    the scope of the variable declared last. *)
Inductive cmd :=
| CNew (t : string)
| CNewIid (t : string) (i : iid)
| CNewCopy (v : nat)
| CAssign (v w : nat)
| CNull (v : nat)
| CQuery (v : nat) (i : iid)
| CRelease (v : nat)
| CGet (v : nat) (g : getter) (at_ : nat) (w : nat)
| CEnd.

Definition set_ptr (v : nat) (x : var) (p : option nat) (vs : list var) : list var := upd v (Var (v_type x) p) vs.

(** [VCOMPtr::Query] (VectorworksMVR.h:157-174) on a variable that is empty: the result is cast without a check. *)
Definition query_ptr (h : heap) (i : iid) : vres (heap * option nat) :=
  do! (h1, out, e) <- query_interface h i (Some None);
  if N.eqb e kNoError then VOk (h1, match out with Some p => p | None => None end) else VOk (h1, None).

Definition step (W : world) (c : cmd) (s : state) : vres state :=
  let h := st_heap s in
  let vs := st_vars s in
  match c with
  | CNew t => VOk (State h (vs ++ [Var t None]))
  | CNewIid t i =>
    do! (h1, p) <- query_ptr h i;
    VOk (State h1 (vs ++ [Var t p]))
  | CNewCopy v =>
    match nth_error vs v with
    | None => VBad
    | Some x =>
      do! h1 <- add_ref_opt h (v_ptr x);
      VOk (State h1 (vs ++ [Var (v_type x) (v_ptr x)]))
    end
  | CAssign v w =>
    match nth_error vs v, nth_error vs w with
    | Some x, Some y =>
      if String.eqb (v_type x) (v_type y) then
        do! h1 <- add_ref_opt h (v_ptr y);
        do! h2 <- release_opt h1 (v_ptr x);
        VOk (State h2 (set_ptr v x (v_ptr y) vs))
      else VBad
    | _, _ => VBad
    end
  | CNull v =>
    match nth_error vs v with
    | None => VBad
    | Some x => do! h1 <- release_opt h (v_ptr x); VOk (State h1 (set_ptr v x None vs))
    end
  | CQuery v i =>
    match nth_error vs v with
    | None => VBad
    | Some x =>
      do! h1 <- release_opt h (v_ptr x);
      do! (h2, p) <- query_ptr h1 i;
      VOk (State h2 (set_ptr v x p vs))
    end
  | CRelease v =>
    match nth_error vs v with
    | None => VBad
    | Some x => do! h1 <- release_opt h (v_ptr x); VOk (State h1 (set_ptr v x None vs))
    end
  | CGet v g at_ w =>
    match nth_error vs v, nth_error vs w with
    | Some x, Some y =>
      if negb (match assoc (g_class g) implements with Some t => String.eqb (v_type x) t | None => false end
               && String.eqb (v_type y) (g_inter g)) then VBad
      else match v_ptr x with
           | None => VNull
           | Some this =>
             do! (h1, p, e) <- call W h this g at_ (v_ptr y);
             VOk (State h1 (set_ptr w y p vs))
           end
    | _, _ => VBad
    end
  | CEnd =>
    match rev vs with
    | [] => VBad
    | x :: _ => do! h1 <- release_opt h (v_ptr x); VOk (State h1 (removelast vs))
    end
  end.

Fixpoint run (W : world) (p : list cmd) (s : state) : vres state :=
  match p with [] => VOk s | c :: p' => do! s1 <- step W c s; run W p' s1 end.

(** ** Functions that give out a value *)

(** [CGdtfDmxModeImpl::GetBreakAt] (CGdtfDmxMode.cpp:465-475), [CGdtfGamutImpl::GetPointAt] (CGdtfGamut.cpp:50-62),
    [CSceneObjImpl::GetAdressAt] (CSceneObjImpl.cpp:1075-1102), on the list of the breaks, points and addresses. *)
Definition mode_break_at {A} (l : list A) (at_ : nat) : vres (A + N) := read_at AtGeSize Brackets 460 l at_.
Definition gamut_point_at {A} (l : list A) (at_ : nat) : vres (A + N) := read_at SizeLtAt Brackets 460 l at_.
Definition address_at {A} (l : list A) (at_ : nat) : vres (A + N) := read_at AtGtSize Throws 1 l at_.

(** [CSceneObjImpl::GetProtocolAt] (CSceneObjImpl.cpp:1022-1054): the record is made on the heap, and its address is
    written to the local copy of the parameter ([outProtocol = &pProtocol]).  [out]: what the parameter of the caller
    points to.  Gives that and the error code. *)
Definition protocol_at {A} (l : list A) (at_ : nat) (out : option A) : vres (option A * N) :=
  do! x <- read_at AtGtSize Throws 1 l at_;
  match x with
  | inl p => let local := Some p in VOk (out, kNoError)
  | inr e => VOk (out, e)
  end.

(** [CSceneDataProviderImpl::GetKeyAt] and [GetValueAt] (CSceneDataProviderImpl.cpp:54-72, 100-117): the empty text
    outside the list. *)
Definition provider_at (l : list string) (at_ : nat) : vres string :=
  if Nat.ltb at_ (List.length l)
  then match nth_error l at_ with Some s => VOk s | None => VUB end
  else VOk "".
