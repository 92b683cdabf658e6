(** The versions of description files: [GdtfFixture::ImportFromZip], GDTFManager.cpp:7977-7996,
    [CGdtfFixtureImpl::GetGDTFVersion], Implementation/CGdtfFixture.cpp:222-242, and the versions of scenes,
    [ReadFromGeneralSceneDescription], SceneDataExchange.cpp:3818-3822, and
    Implementation/CMediaRessourceVectorImpl.cpp:1533-1554.  The wide-character functions of the C library
    are those of the "C" locale. *)
From Coq Require Import List NArith ZArith Bool String.
From Verif Require Import Bytes Txt UtfModel StringModel NumModel.
Import ListNotations.
Open Scope N_scope.
Open Scope list_scope.

(** std::stoi of a wide text: wcstol with base 10; [None] is std::invalid_argument (no digits) or
    std::out_of_range. *)
Definition stoi_digits (neg : bool) (r : list N) : option Z :=
  match r with
  | c :: _ =>
    if is_digit c then
      let z := if neg then (- Z.of_N (digits_val r 0))%Z else Z.of_N (digits_val r 0) in
      if ((- 2147483648 <=? z) && (z <=? 2147483647))%Z then Some z else None
    else None
  | [] => None
  end.
Definition stoi (w : list N) : option Z :=
  let r := skip_space w in
  match r with
  | c :: r' => if c =? 45 then stoi_digits true r' else if c =? 43 then stoi_digits false r' else stoi_digits false r
  | [] => None
  end.

(** [TXString::GetStdWString] on Linux, GSString.cpp:1538-1551: one element for each code point; malformed
    text throws. *)
Definition wide (s : list N) : option (list N) := dec16 s.
Definition stoi_tx (s : list N) : option Z := match wide s with Some w => stoi w | None => None end.

(** GDTFManager.cpp:7980-7993: the text of the attribute DataVersion; every exception gives 0 and 0. *)
Definition gdtf_version (version : list N) : Z * Z :=
  match tx_find version (T".") 0 false with
  | None => (0, 0)%Z
  | Some dotPos =>
    let majorStr := mid version 0 dotPos in
    let minorStr := mid version (dotPos + 1) npos in
    match stoi_tx majorStr with
    | None => (0, 0)%Z
    | Some a => match stoi_tx minorStr with None => (0, 0)%Z | Some b => (a, b) end
    end
  end.

(** [GetGDTFVersion], CGdtfFixture.cpp:222-242, of a fixture that was read: success and the two numbers. *)
Definition get_gdtf_version (v : Z * Z) : bool * (Z * Z) :=
  let '(major, minor) := v in
  if ((major <=? 0) || (minor <=? 0))%Z then (false, (0, 0)%Z) else (true, (major, minor)).

(** What is written, GDTFManager.cpp:9872 and Prefix/CommonPrefix.h:267, and what is said to be supported,
    CMediaRessourceVectorImpl.cpp:1549-1554 and Prefix/CommonPrefix.h:257-258. *)
Definition written_gdtf_version : list N := T"1.2".
Definition latest_gdtf_version : Z * Z := (1, 2)%Z.

(** SceneDataExchange.cpp:3818-3822: the numbers are kept in members of type size_t; [GetMVRVersion],
    CMediaRessourceVectorImpl.cpp:1533-1539, converts them to Sint32. *)
Definition mvr_version (major minor : list N) : res (N * N) :=
  do a <- atoi major; do b <- atoi minor; Ok (to_unsigned 64 a, to_unsigned 64 b).
Definition get_mvr_version (v : N * N) : Z * Z := (to_signed 32 (Z.of_N (fst v)), to_signed 32 (Z.of_N (snd v))).
(** SceneDataExchange.cpp:3610-3611, Prefix/CommonPrefix.h:254-255. *)
Definition latest_mvr_version : Z * Z := (1, 6)%Z.
Definition written_mvr_version : list N * list N := (itoa (fst latest_mvr_version), itoa (snd latest_mvr_version)).
