(** [HashManager] on buffers (HashManager.cpp).

    [extra] and [raw] are the contents of uninitialised memory of the SHA256 object (see ShaModel.v).
    A result [None] means an array was left or a conversion threw. *)
From Coq Require Import List NArith ZArith Lia Bool.
From Coq Require Import ZifyN ZifyNat ZifyBool.
From Verif Require Import Bytes UtfModel StringModel ShaModel.
Import ListNotations.
Open Scope N_scope.

(** [CreateHash] for a buffer, HashManager.cpp:134-152: the std::string returned by getHash becomes a
    TXString. *)
Definition create_hash (extra raw : list N) (buffer : list N) : option (list N) :=
  match sha_of extra buffer (reset raw) with
  | Some (t, _) => set_from_chars t
  | None => None
  end.

(** [CreateHashForBuffer], HashManager.cpp:24-46: [GetLength] bytes (the number of units) of the UTF-8
    form are stored. *)
Definition create_hash_for_buffer (extra raw : list N) (buffer : list N) : option (list N) :=
  match create_hash extra raw buffer with
  | Some hash =>
    match to_bytes hash with Some b => Some (firstn (length hash) (b ++ [0])) | None => None end
  | None => None
  end.

(** [CheckHashForBuffer], HashManager.cpp:154-172. *)
Definition check_hash_for_buffer (extra raw : list N) (buffer stored : list N) : option bool :=
  match create_hash extra raw buffer with
  | Some bufferHash =>
    match set_from_chars stored with
    | Some storedHash => Some (txeq storedHash bufferHash)
    | None => None
    end
  | None => None
  end.
