(* Safety numbers: /repo/fingerprint/fingerprint.go, fingerprint_numbers.go, qr_fingerprint.go and
   GetFingerprint in /repo/store.go 267-282. SHA-512 is the argument H. *)
From Coq Require Import ZArith List Lia Bool.
From Verif Require Import Bytes Res Wire Crypto Messages RecordCodec Decimal.
Import ListNotations.
Open Scope Z_scope.

(* ECPublicKey.Serialize (/repo/axolotl/keys.go 60-64) *)
Definition fp_serialize (k : bytes) : bytes := 5 :: k.

(* bytes.Compare of two serialized keys is -1, as used by sortByteArrays.Less (fingerprint.go 121-132),
   is Decimal.blt. sort.Sort is modelled by insertion sort: the keys are fixed-size arrays, so equal
   elements are identical and the sorted slice does not depend on the algorithm. *)
Fixpoint insert_key (k : bytes) (l : list bytes) : list bytes :=
  match l with
  | [] => [k]
  | x :: t => if blt (fp_serialize x) (fp_serialize k) then x :: insert_key k t else k :: x :: t
  end.
Fixpoint sort_keys (l : list bytes) : list bytes :=
  match l with [] => [] | k :: t => insert_key k (sort_keys t) end.

(* getLogicalKeyBytes (fingerprint.go 103-112) *)
Definition getLogicalKeyBytes (keys : list bytes) : bytes := flat_map fp_serialize (sort_keys keys).

Section Hash.
Variable H : bytes -> bytes.

(* repeatedHashing (68-77): each round hashes the previous hash followed by the key *)
Fixpoint repeatedHashing (n : nat) (hash key : bytes) : bytes :=
  match n with O => hash | S m => repeatedHashing m (H (hash ++ key)) key end.

(* ITERATIONS (19), FINGERPRINT_VERSION (20) in two big-endian bytes *)
Definition ITERATIONS : nat := 5200.
(* getFingerprint (54-66) *)
Definition getFingerprint (n : nat) (ident : bytes) (keys : list bytes) : bytes :=
  let pk := getLogicalKeyBytes keys in repeatedHashing n ([0; 0] ++ pk ++ ident) pk.

(* byteArray5ToLong (fingerprint_numbers.go 46-53): an index out of range panics *)
Definition byteArray5ToLong (b : bytes) (off : nat) : res Z :=
  match skipn off b with
  | a :: b1 :: c :: d :: e :: _ =>
      Ok (Z.lor (Z.lor (Z.lor (Z.lor (Z.shiftl (Z.land a 255) 32) (Z.shiftl (Z.land b1 255) 24)) (Z.shiftl (Z.land c 255) 16))
         (Z.shiftl (Z.land d 255) 8)) (Z.land e 255))
  | _ => Panic
  end.
(* Sprintf("%05d", v) for v >= 0 *)
Definition pad5 (v : Z) : bytes := let d := udec v in repeat 48 (5 - length d) ++ d.
(* getEncodedChunk (40-43) *)
Definition getEncodedChunk (b : bytes) (off : nat) : res bytes :=
  let* v := byteArray5ToLong b off in Ok (pad5 (v mod 100000)).
(* getFingerprintNumbersFor (29-37) *)
Definition getFingerprintNumbersFor (fp : bytes) : res (list bytes) :=
  let* a := getEncodedChunk fp 0 in let* b := getEncodedChunk fp 5 in let* c := getEncodedChunk fp 10 in
  let* d := getEncodedChunk fp 15 in let* e := getEncodedChunk fp 20 in let* f := getEncodedChunk fp 25 in
  Ok [a; b; c; d; e; f].

(* strings.Compare *)
Definition scompare (a b : bytes) : Z := if beq a b then 0 else if blt a b then -1 else 1.
(* compareFingerprintBlocks (17-26): localBlocks[0] is evaluated before the length is looked at, so two
   equal lists end in an index out of range *)
Fixpoint compareFingerprintBlocks (a b : list bytes) : res Z :=
  if (length a =? length b)%nat then
    match a, b with
    | x :: ta, y :: tb => let r := scompare x y in if r =? 0 then compareFingerprintBlocks ta tb else Ok r
    | _, _ => Panic
    end
  else Ok (zlen a - zlen b).

(* CreateFingerprintNumbers (8-15) *)
Definition CreateFingerprintNumbers (l r : bytes) : res (list bytes) :=
  let* a := getFingerprintNumbersFor l in
  let* b := getFingerprintNumbersFor r in
  let* c := compareFingerprintBlocks a b in
  Ok (if c <=? 0 then a ++ b else b ++ a).

(* CombinedFingerprints (/repo/axolotl/protobuf/FingerprintProtocol.proto, proto2: set fields are
   always written). getMarshalledCombinedFingerprints (qr_fingerprint.go 29-45): slicing [:32] panics
   for shorter slices. *)
Definition logical_slots (b : bytes) : slots := [(1, [WLen b])].
Definition combined_slots (v : Z) (l r : bytes) : slots :=
  [(1, [WVarint v]); (2, f_msg (logical_slots l)); (3, f_msg (logical_slots r))].
Definition CreateQRFingerprint (v : Z) (l r : bytes) : res bytes :=
  if (32 <=? length l)%nat && (32 <=? length r)%nat
  then Ok (marshal (combined_slots v (firstn 32 l) (firstn 32 r))) else Panic.
(* ScanQRFingerprint (49-56): version and contents, None where a field is absent *)
Definition logical_dec (fs : list wfield) : option (option bytes) := Some (get_len 1 fs).
Definition ScanQRFingerprint (b : bytes) : res (option Z * option (option bytes) * option (option bytes)) :=
  match parse b with
  | None => Err EProto
  | Some fs =>
      match g_msg 2 logical_dec fs, g_msg 3 logical_dec fs with
      | Some l, Some r => Ok (option_map to_u32 (get_varint 1 fs), l, r)
      | _, _ => Err EProto
      end
  end.

(* CreateFingerprint (fingerprint.go 24-35) *)
Definition CreateFingerprint (v : Z) (lid : bytes) (lkeys : list bytes) (rid : bytes) (rkeys : list bytes)
  : res (list bytes * bytes) :=
  let l := getFingerprint ITERATIONS lid lkeys in
  let r := getFingerprint ITERATIONS rid rkeys in
  let* nums := CreateFingerprintNumbers l r in
  let* qr := CreateQRFingerprint v l r in
  Ok (nums, qr).

(* castParameters (47-51): key[1:] panics on the empty slice, NewECPublicKey on a wrong length *)
Definition castKey (k : bytes) : res bytes := match k with [] => Panic | _ :: t => key32 t end.
(* CreateFingerprintSimple (38-45) *)
Definition CreateFingerprintSimple (v : Z) (lid lkey rid rkey : bytes) : res (list bytes * bytes) :=
  let* lk := castKey lkey in let* rk := castKey rkey in
  CreateFingerprint v lid [lk] rid [rk].
End Hash.
