(** The XML reader and printer of the bundled tinyxml2 (rapidxmlsupport/tinyxml2.cpp, "T:" below) and
    how XMLFileImpl.cpp and XMLFileNodeImpl.cpp in the same folder use them.

    Texts are lists of bytes without the terminating 0; [hd 0] is what a pointer at the end reads.  The
    buffer that is parsed is changed in place when a value is asked for; every such value lies in front
    of the text still to be parsed, so the values are converted at once here.  Line numbers, memory
    pools, user data and the modes the library does not use (collapsed whitespace, compact output,
    entities left alone, output to a FILE) are not modelled. *)
From Coq Require Import String List NArith ZArith Bool.
From Verif Require Import Bytes Txt UtfModel StringModel.
Import ListNotations.
Open Scope N_scope.

(** ** Characters, tinyxml2.h:572-592; isspace, isalpha and isdigit of ASCII characters. *)
Definition is_ws (c : N) : bool := (c =? 32) || (9 <=? c) && (c <=? 13).
Definition name_start (c : N) : bool :=
  (128 <=? c) || (65 <=? c) && (c <=? 90) || (97 <=? c) && (c <=? 122) || (c =? 58) || (c =? 95).
Definition name_char (c : N) : bool :=
  name_start c || (48 <=? c) && (c <=? 57) || (c =? 46) || (c =? 45).
(** [SkipWhiteSpace], tinyxml2.h:554-568. *)
Fixpoint skip_ws (s : list N) : list N :=
  match s with c :: r => if is_ws c then skip_ws r else s | [] => [] end.

(** ** Values *)
(** [StrPair::ParseText], T:202-225: the text in front of [stop] and the text after it. *)
Fixpoint parse_text (stop s : list N) : option (list N * list N) :=
  match s with
  | [] => None
  | c :: r =>
    if is_prefix stop s then Some ([], skipn (List.length stop) s)
    else match parse_text stop r with Some (a, b) => Some (c :: a, b) | None => None end
  end.
Fixpoint span (P : N -> bool) (s : list N) : list N * list N :=
  match s with
  | c :: r => if P c then let '(a, b) := span P r in (c :: a, b) else ([], s)
  | [] => ([], [])
  end.
(** [StrPair::ParseName], T:228-245. *)
Definition parse_name (s : list N) : option (list N * list N) :=
  match s with
  | c :: r => if name_start c then let '(a, b) := span name_char r in Some (c :: a, b) else None
  | [] => None
  end.

(** [ConvertUTF32ToUTF8], T:422-467; [ucs] is an unsigned long of 64 bits. *)
Definition utf8_of (u : N) : list N :=
  let mark (x : N) : N := N.land (N.lor x 128) 191 mod 256 in
  if u <? 128 then [u]
  else if u <? 2048 then [N.lor (u / 64) 192 mod 256; mark u]
  else if u <? 65536 then [N.lor (u / 4096) 224 mod 256; mark (u / 64); mark u]
  else if u <? 2097152 then [N.lor (u / 262144) 240 mod 256; mark (u / 4096); mark (u / 64); mark u]
  else [].
(** The loops of [GetCharacterRef], T:494-520 and 540-556, over the digits from the last to the first;
    [mult] is an unsigned int. *)
Definition ref_digit (base c : N) : option N :=
  if (48 <=? c) && (c <=? 57) then Some (c - 48)
  else if (base =? 16) && (97 <=? c) && (c <=? 102) then Some (c - 87)
  else if (base =? 16) && (65 <=? c) && (c <=? 70) then Some (c - 55)
  else None.
Fixpoint ref_value (base : N) (rev_digits : list N) (mult ucs : N) : option N :=
  match rev_digits with
  | [] => Some ucs
  | c :: r =>
    match ref_digit base c with
    | Some d => ref_value base r (mult * base mod 4294967296) (ucs + mult * d mod 4294967296)
    | None => None
    end
  end.
(** [GetCharacterRef], T:470-563; [s] follows "&#".  [None]: a null pointer is returned.  The loops run
    down to the 'x' or '#'; a further 'x' among the digits ends the first one early. *)
Fixpoint upto_x (rev_digits : list N) : list N :=
  match rev_digits with c :: r => if c =? 120 then [] else c :: upto_x r | [] => [] end.
Fixpoint upto_hash (rev_digits : list N) : list N :=
  match rev_digits with c :: r => if c =? 35 then [] else c :: upto_hash r | [] => [] end.
Definition char_ref (s : list N) : option (list N * list N) :=
  match s with
  | [] => None
  | 120 :: r =>
    match r with
    | [] => None
    | _ =>
      match parse_text [59] r with
      | Some (ds, rest) => match ref_value 16 (upto_x (rev ds)) 1 0 with Some u => Some (utf8_of u, rest) | None => None end
      | None => None
      end
    end
  | _ =>
    match parse_text [59] s with
    | Some (ds, rest) => match ref_value 10 (upto_hash (rev ds)) 1 0 with Some u => Some (utf8_of u, rest) | None => None end
    | None => None
    end
  end.
(** The table of T:128-134. *)
Definition entities : list (list N * N) :=
  [(T"quot", 34); (T"amp", 38); (T"apos", 39); (T"lt", 60); (T"gt", 62)].
Fixpoint entity_at (table : list (list N * N)) (s : list N) : option (N * list N) :=
  match table with
  | [] => None
  | (pat, v) :: r =>
    if is_prefix (pat ++ [59]) s then Some (v, skipn (S (List.length pat)) s) else entity_at r s
  end.
(** [StrPair::GetStr], T:280-385, without collapsing whitespace.  [orig] is the text between start and
    end, [out] what has been written at its front, reversed; where a '&' starts no entity the writing
    pointer is moved on without writing (371-375), so the byte of the original text at that place stays.
    [ents]: NEEDS_ENTITY_PROCESSING.  NEEDS_NEWLINE_NORMALIZATION is always set. *)
Fixpoint get_loop (fuel : nat) (ents : bool) (orig out s : list N) : option (list N) :=
  match s with
  | [] => Some (rev out)
  | c :: r =>
    match fuel with
    | O => None
    | S f =>
      if c =? 13 then get_loop f ents orig (10 :: out) (if hd 0 r =? 10 then tl r else r)
      else if c =? 10 then get_loop f ents orig (10 :: out) (if hd 0 r =? 13 then tl r else r)
      else if ents && (c =? 38) then
        if hd 0 r =? 35 then
          match (match tl r with [] => Some ([], r) | _ => char_ref (tl r) end) with
          | Some (v, rest) => get_loop f ents orig (rev v ++ out) rest
          | None => get_loop f ents orig (38 :: out) r
          end
        else
          match entity_at entities r with
          | Some (v, rest) => get_loop f ents orig (v :: out) rest
          | None => get_loop f ents orig (nth (List.length out) orig 0 :: out) r
          end
      else get_loop f ents orig (c :: out) r
    end
  end.
(** The result is a C string: it ends at the first 0. *)
Definition get_str (ents : bool) (s : list N) : list N :=
  match get_loop (S (List.length s)) ents s [] s with Some v => upto_nul v | None => [] end.

(** ** Reading *)
Inductive node :=
| Elem (name : list N) (attrs : list (list N * list N)) (kids : list node)
| Text (value : list N)
| Cdata (value : list N)
| Comment (value : list N)
| Decl (value : list N)
| Unknown (value : list N).
Inductive xerr := EElement | EAttribute | EText | ECdata | EComment | EDecl | EUnknown | EEmpty | EMismatch | EParsing | EDepth.

(** [XMLAttribute::ParseDeep], T:1403-1430. *)
Definition parse_attr (s : list N) : option (list N * list N * list N) :=
  match parse_name s with
  | None | Some (_, []) => None
  | Some (name, r) =>
    match skip_ws r with
    | 61 :: r1 =>
      match skip_ws r1 with
      | q :: r2 =>
        if (q =? 34) || (q =? 39) then
          match parse_text [q] r2 with Some (v, rest) => Some (name, get_str true v, rest) | None => None end
        else None
      | [] => None
      end
    | _ => None
    end
  end.
Fixpoint eqb_bytes (a b : list N) : bool :=
  match a, b with
  | [], [] => true
  | x :: a', y :: b' => (x =? y) && eqb_bytes a' b'
  | _, _ => false
  end.
Definition has_attr (name : list N) (attrs : list (list N * list N)) : bool :=
  existsb (fun a => eqb_bytes (fst a) name) attrs.
(** [XMLElement::ParseAttributes], T:1937-1996: the attributes, whether the element was closed by "/>",
    and the rest. *)
Inductive ares := AOk (attrs : list (list N * list N)) (closed : bool) (rest : list N) | AErr (e : xerr) | ALoop.
Fixpoint parse_attrs (fuel : nat) (acc : list (list N * list N)) (s : list N) : ares :=
  match fuel with
  | O => ALoop
  | S f =>
    match skip_ws s with
    | [] => AErr EElement
    | c :: r =>
      if name_start c then
        match parse_attr (c :: r) with
        | Some (name, v, rest) => if has_attr name acc then AErr EAttribute else parse_attrs f (acc ++ [(name, v)]) rest
        | None => AErr EAttribute
        end
      else if c =? 62 then AOk acc false r
      else if (c =? 47) && (hd 0 r =? 62) then AOk acc true (tl r)
      else AErr EElement
    end
  end.

(** What [XMLNode::ParseDeep] gives: a null pointer without an error at the end of the text, the name of
    an end tag that was read and the rest, or an error. *)
Inductive nres := Stop (kids : list node) | EndTag (kids : list node) (name rest : list N) | NErr (e : xerr) | NLoop.
Definition is_decl (n : node) : bool := match n with Decl _ => true | _ => false end.
(** T:1085-1100: a declaration is allowed in the document if there are only declarations so far; only
    the first and the last child are looked at. *)
Definition decl_allowed (doc : bool) (kids : list node) : bool :=
  doc && match kids with [] => true | k :: _ => is_decl k && is_decl (last kids k) end.
Definition max_depth : N := 100.   (* tinyxml2.h:115 *)
Definition read_special (stop s : list N) (mk : list N -> node) (e : xerr) : node * list N + xerr :=
  match parse_text stop s with Some (v, rest) => inl (mk (get_str false v), rest) | None => inr e end.

(** The loop of [XMLNode::ParseDeep], T:1047-1158, with [XMLDocument::Identify], T:714-784, and
    [XMLElement::ParseDeep], T:2058-2087.  [depth] is _parsingDepth during this call. *)
Fixpoint nodes (fuel : nat) (depth : N) (doc : bool) (kids : list node) (s : list N) : nres :=
  match fuel with
  | O => NLoop
  | S f =>
    match skip_ws s with
    | [] => Stop kids
    | c :: r =>
      let s1 := c :: r in
      let add (x : node * list N + xerr) : nres :=
        match x with inl (n, rest) => nodes f depth doc (kids ++ [n]) rest | inr e => NErr e end in
      if is_prefix (T"<?") s1 then
        match read_special (T"?>") (skipn 2 s1) Decl EDecl with
        | inl (n, rest) => if decl_allowed doc kids then nodes f depth doc (kids ++ [n]) rest else NErr EDecl
        | inr e => NErr e
        end
      else if is_prefix (T"<!--") s1 then add (read_special (T"-->") (skipn 4 s1) Comment EComment)
      else if is_prefix (T"<![CDATA[") s1 then add (read_special (T"]]>") (skipn 9 s1) Cdata ECdata)
      else if is_prefix (T"<!") s1 then add (read_special (T">") (skipn 2 s1) Unknown EUnknown)
      else if c =? 60 then
        let s2 := skip_ws r in
        let closing := hd 0 s2 =? 47 in
        match parse_name (if closing then tl s2 else s2) with
        | None => NErr EParsing
        | Some (name, s3) =>
          match parse_attrs (S (List.length s3)) [] s3 with
          | ALoop => NLoop
          | AErr e => NErr e
          | AOk attrs true rest => nodes f depth doc (kids ++ [Elem name attrs []]) rest
          | AOk attrs false rest =>
            if closing then EndTag kids name rest
            else match rest with
            | [] => NErr EMismatch
            | _ =>
              if depth + 1 =? max_depth then NErr EDepth else
              match nodes f (depth + 1) false [] rest with
              | EndTag inner name' rest' =>
                if eqb_bytes name' name then nodes f depth doc (kids ++ [Elem name attrs inner]) rest' else NErr EMismatch
              | Stop _ => NErr EParsing
              | NErr e => NErr e
              | NLoop => NLoop
              end
            end
          end
        end
      else
        match parse_text (T"<") s with
        | None => NErr EText
        | Some (v, []) => NErr EParsing
        | Some (v, rest) => nodes f depth doc (kids ++ [Text (get_str true v)]) (60 :: rest)
        end
    end
  end.
Inductive dres := DOk (nodes : list node) | DErr (e : xerr) | DLoop.
(** [ReadBOM], T:401-419. *)
Definition skip_bom (s : list N) : list N := if is_prefix [239; 187; 191] s then skipn 3 s else s.
(** [XMLDocument::Parse], T:2459-2487 and 2543-2557.  An end tag in the document ends the reading. *)
Definition parse (xml : list N) : dres :=
  match upto_nul xml with
  | [] => DErr EEmpty
  | s =>
    match skip_bom (skip_ws s) with
    | [] => DErr EEmpty
    | s1 => match nodes (S (List.length s1)) 1 true [] s1 with
            | Stop k => DOk k | EndTag k _ _ => DOk k | NErr e => DErr e | NLoop => DLoop end
    end
  end.
(** [CXMLFileImpl::ReadBuffer] and [GetRootNode]: [XMLDocument::RootElement] is the first element. *)
Fixpoint root_element (l : list node) : option node :=
  match l with [] => None | Elem n a k :: _ => Some (Elem n a k) | _ :: r => root_element r end.

(** ** Writing *)
(** [XMLPrinter::PrintString], T:2633-2685; the flags of T:2567-2581. *)
Definition entity_of (c : N) : list N :=
  match find (fun e => snd e =? c) entities with Some (p, _) => T"&" ++ p ++ T";" | None => [c] end.
Definition escape (restricted : bool) (s : list N) : list N :=
  flat_map (fun c =>
    if (if restricted then (c =? 38) || (c =? 60) || (c =? 62) else existsb (fun e => snd e =? c) entities)
    then entity_of c else [c]) s.
(** The state of the printer; [tdepth] is _textDepth + 1, 0 if not in text. *)
Record pst := mkSt { just : bool; first : bool; depth : nat; tdepth : nat }.
Definition start_st : pst := mkSt false true 0 0.
Definition spaces (n : nat) : list N := flat_map (fun _ => T"    ") (seq 0 n).
(** [SealElementIfJustOpened], T:2806-2813, and [PrepareForNewNode], T:2698-2714. *)
Definition seal (st : pst) : list N := if just st then T">" else [].
Definition prepare (st : pst) : list N * pst :=
  (seal st ++ (if first st then spaces (depth st)
               else match tdepth st with O => [10] ++ spaces (depth st) | _ => [] end),
   mkSt false false (depth st) (tdepth st)).
(** [OpenElement] and [PushAttribute], T:2716-2738. *)
Definition print_attr (a : list N * list N) : list N := T" " ++ fst a ++ [61; 34] ++ escape false (snd a) ++ [34].
Definition open_element (st : pst) (name : list N) (attrs : list (list N * list N)) : list N * pst :=
  let '(o, st1) := prepare st in
  (o ++ T"<" ++ name ++ flat_map print_attr attrs, mkSt true (first st1) (S (depth st1)) (tdepth st1)).
(** [CloseElement], T:2778-2804. *)
Definition close_element (st : pst) (name : list N) : list N * pst :=
  let d := pred (depth st) in
  ((if just st then T"/>"
    else (match tdepth st with O => [10] ++ spaces d | _ => [] end) ++ T"</" ++ name ++ T">")
   ++ (match d with O => [10] | _ => [] end),
   mkSt false (first st) d (if Nat.eqb (tdepth st) (S d) then O else tdepth st)).
(** [Accept] of the nodes, T:787-796 and 2126-2137, with the printer's visit functions, T:2893-2983. *)
Fixpoint print (st : pst) (n : node) {struct n} : list N * pst :=
  match n with
  | Elem name attrs kids =>
    let '(o1, st1) := open_element st name attrs in
    let '(o2, st2) := (fix go (st : pst) (l : list node) : list N * pst :=
      match l with
      | [] => ([], st)
      | k :: r => let '(a, st') := print st k in let '(b, st'') := go st' r in (a ++ b, st'')
      end) st1 kids in
    let '(o3, st3) := close_element st2 name in (o1 ++ o2 ++ o3, st3)
  | Text v => (seal st ++ escape true v, mkSt false (first st) (depth st) (depth st))
  | Cdata v => (seal st ++ T"<![CDATA[" ++ v ++ T"]]>", mkSt false (first st) (depth st) (depth st))
  | Comment v => let '(o, st1) := prepare st in (o ++ T"<!--" ++ v ++ T"-->", st1)
  | Decl v => let '(o, st1) := prepare st in (o ++ T"<?" ++ v ++ T"?>", st1)
  | Unknown v => let '(o, st1) := prepare st in (o ++ T"<!" ++ v ++ T">", st1)
  end.
Fixpoint print_all (st : pst) (l : list node) : list N * pst :=
  match l with
  | [] => ([], st)
  | k :: r => let '(a, st') := print st k in let '(b, st'') := print_all st' r in (a ++ b, st'')
  end.
(** [CXMLFileImpl::WriteBuffer], rapidxmlsupport/XMLFileImpl.cpp:108-115: the size of the buffer counts
    the terminating 0; the last two bytes are left out. *)
Definition declaration : list N := T"xml version=" ++ [34] ++ T"1.0" ++ [34] ++ T" encoding=" ++ [34] ++ T"UTF-8" ++ [34].
Definition write_buffer (doc : list node) : list N := removelast (fst (print_all start_st (Decl declaration :: doc))).

(** ** Nodes, rapidxmlsupport/XMLFileNodeImpl.cpp *)
(** [SetNodeAttributeValue] (FindOrCreateAttribute, T:1890-1914) and [GetNodeAttributeValue]. *)
Fixpoint set_attr (name v : list N) (attrs : list (list N * list N)) : list (list N * list N) :=
  match attrs with
  | [] => [(name, v)]
  | (n, w) :: r => if eqb_bytes n name then (n, v) :: r else (n, w) :: set_attr name v r
  end.
Fixpoint get_attr (name : list N) (attrs : list (list N * list N)) : option (list N) :=
  match attrs with [] => None | (n, w) :: r => if eqb_bytes n name then Some w else get_attr name r end.

(** [SetNodeValue] and [GetNodeValue]: [XMLElement::SetText] and [GetText], T:1664-1691.  [ToText] also
    holds for CDATA; its value is replaced and it stays CDATA.  [None]: a null pointer, which is assigned to the
    TXString and leaves it empty (GSString.cpp:419-434). *)
Definition set_text (v : list N) (kids : list node) : list node :=
  match kids with
  | Text _ :: r => Text v :: r
  | Cdata _ :: r => Cdata v :: r
  | _ => Text v :: kids
  end.
Fixpoint get_text (kids : list node) : option (list N) :=
  match kids with
  | Comment _ :: r => get_text r
  | Text v :: _ | Cdata v :: _ => Some v
  | _ => None
  end.
(** [GetChildNode] by name, [FirstChildElement], T:1002-1012; [CreateChildNode], [InsertNewChildElement]
    (InsertEndChild). *)
Fixpoint child_named (name : list N) (kids : list node) : option node :=
  match kids with
  | [] => None
  | Elem n a k :: r => if eqb_bytes n name then Some (Elem n a k) else child_named name r
  | _ :: r => child_named name r
  end.
Definition add_child (name : list N) (kids : list node) : list node := kids ++ [Elem name [] []].
(** [GetFirstChildNode], and [GetLastChildNode], which asks for the first child too (XMLFileNodeImpl.cpp:194-201). *)
Definition first_child (kids : list node) : option node := root_element kids.
Definition last_child (kids : list node) : option node := root_element kids.
