(* Text and framing encodings: base64 keys and signatures, UUIDs, length-prefixed sync streams. *)
From Coq Require Import ZArith List Lia Bool.
From Verif Require Import Bytes Res Wire Messages Session RecordCodec.
Import ListNotations.
Open Scope Z_scope.

(* ---------- base64 ---------- *)

(* encoding/base64 StdEncoding alphabet A-Z a-z 0-9 + / *)
Definition c64 (v : Z) : Z :=
  if v <? 26 then 65 + v else if v <? 52 then 71 + v else if v <? 62 then v - 4
  else if v =? 62 then 43 else 47.
(* decodeMap *)
Definition d64 (c : Z) : option Z :=
  if (65 <=? c) && (c <=? 90) then Some (c - 65)
  else if (97 <=? c) && (c <=? 122) then Some (c - 71)
  else if (48 <=? c) && (c <=? 57) then Some (c + 4)
  else if c =? 43 then Some 62 else if c =? 47 then Some 63 else None.

(* StdEncoding.EncodeToString *)
Fixpoint enc64 (l : bytes) : bytes :=
  match l with
  | [] => []
  | [a] => [c64 (a / 4); c64 (a mod 4 * 16); 61; 61]
  | [a; b] => [c64 (a / 4); c64 (a mod 4 * 16 + b / 16); c64 (b mod 16 * 4); 61]
  | a :: b :: c :: t =>
      c64 (a / 4) :: c64 (a mod 4 * 16 + b / 16) :: c64 (b mod 16 * 4 + c / 64) :: c64 (c mod 64) :: enc64 t
  end.

(* StdEncoding.DecodeString: '\r' and '\n' are skipped everywhere, padding may only end the text,
   trailing bits of the last quantum are not checked (the encoding is not Strict). *)
Definition is_newline (c : Z) : bool := (c =? 10) || (c =? 13).
Fixpoint dec64_quanta (s : bytes) : res bytes :=
  match s with
  | [] => Ok []
  | a :: b :: c :: d :: t =>
      match d64 a, d64 b with
      | Some x, Some y =>
          if c =? 61 then
            if (d =? 61) && match t with [] => true | _ => false end
            then Ok [x * 4 + y / 16] else Err EBadFormat
          else match d64 c with
               | None => Err EBadFormat
               | Some z =>
                   if d =? 61 then
                     match t with
                     | [] => Ok [x * 4 + y / 16; y mod 16 * 16 + z / 4]
                     | _ => Err EBadFormat
                     end
                   else match d64 d with
                        | None => Err EBadFormat
                        | Some w =>
                            let* r := dec64_quanta t in
                            Ok (x * 4 + y / 16 :: y mod 16 * 16 + z / 4 :: z mod 4 * 64 + w :: r)
                        end
               end
      | _, _ => Err EBadFormat
      end
  | _ => Err EBadFormat
  end.
Definition dec64 (s : bytes) : res bytes := dec64_quanta (filter (fun c => negb (is_newline c)) s).

(* strings.TrimRight(s, "=") *)
Fixpoint drop_eq (s : bytes) : bytes :=
  match s with c :: t => if c =? 61 then drop_eq t else s | [] => [] end.
Definition trim_eq (s : bytes) : bytes := rev (drop_eq (rev s)).

(* /repo/helpers/base64.go 9-12 *)
Definition Base64EncWithoutPadding (b : bytes) : bytes := trim_eq (enc64 b).
(* /repo/helpers/base64.go 15-20 *)
Definition Base64DecodeNonPadded (s : bytes) : res bytes :=
  let m := Nat.modulo (length s) 4 in
  dec64 (if Nat.eqb m 0 then s else s ++ repeat 61 (4 - m)).

(* /repo/textsecure.go 57-59 *)
Definition encodeKey (key : bytes) : bytes := Base64EncWithoutPadding (5 :: key).
(* /repo/textsecure.go 65-74 *)
Definition decodeKey (s : bytes) : res bytes :=
  let* b := Base64DecodeNonPadded s in
  if negb (Nat.eqb (length b) 33) || negb (nth 0 b 0 =? 5) then Err EBadFormat else Ok (skipn 1 b).
(* /repo/textsecure.go 76-85 *)
Definition decodeSignature (s : bytes) : res bytes :=
  let* b := Base64DecodeNonPadded s in
  if negb (Nat.eqb (length b) 64) then Err EBadFormat else Ok b.

(* ---------- UUIDs ---------- *)

Definition hexdigit (v : Z) : Z := if v <? 10 then 48 + v else 87 + v.
(* hex.EncodeToString *)
Fixpoint hex (l : bytes) : bytes :=
  match l with [] => [] | b :: t => hexdigit (b / 16) :: hexdigit (b mod 16) :: hex t end.

Definition slice {A} (i j : nat) (l : list A) : list A := firstn (j - i) (skipn i l).

(* /repo/server.go 613-619; id[:8] panics below 8 bytes, lsbHex[:4] below 2 more *)
Definition idToHexUUID (id : bytes) : res bytes :=
  if Nat.ltb (length id) 10 then Panic else
  let msb := hex (firstn 8 id) in
  let lsb := hex (skipn 8 id) in
  Ok (slice 0 8 msb ++ [45] ++ slice 8 12 msb ++ [45] ++ skipn 12 msb ++ [45] ++
      slice 0 4 lsb ++ [45] ++ skipn 4 lsb).

(* /repo/helpers/helpers.go 3-10 *)
Definition HexToUUID (s : bytes) : bytes :=
  if negb (Nat.eqb (length s) 32) then s else
  let msb := firstn 16 s in
  let lsb := skipn 16 s in
  slice 0 8 msb ++ [45] ++ slice 8 12 msb ++ [45] ++ skipn 12 msb ++ [45] ++
  slice 0 4 lsb ++ [45] ++ skipn 4 lsb.

(* The regular expression of /repo/sync.go 149-152, one class per character:
   "^[a-fA-F0-9]{8}-[a-fA-F0-9]{4}-4[a-fA-F0-9]{3}-[8|9|aA|bB][a-fA-F0-9]{3}-[a-fA-F0-9]{12}$" *)
Definition is_hex (c : Z) : bool :=
  ((48 <=? c) && (c <=? 57)) || ((97 <=? c) && (c <=? 102)) || ((65 <=? c) && (c <=? 70)).
Definition is_variant (c : Z) : bool :=
  (c =? 56) || (c =? 124) || (c =? 57) || (c =? 97) || (c =? 65) || (c =? 98) || (c =? 66).
Definition uuid_classes : list (Z -> bool) :=
  repeat is_hex 8 ++ [Z.eqb 45] ++ repeat is_hex 4 ++ [Z.eqb 45] ++ [Z.eqb 52] ++ repeat is_hex 3 ++
  [Z.eqb 45] ++ [is_variant] ++ repeat is_hex 3 ++ [Z.eqb 45] ++ repeat is_hex 12.
Fixpoint matches (cs : list (Z -> bool)) (s : bytes) : bool :=
  match cs, s with
  | [], [] => true
  | p :: cs', c :: s' => p c && matches cs' s'
  | _, _ => false
  end.
Definition isValidUUID (s : bytes) : bool := matches uuid_classes s.

(* ---------- sync streams ---------- *)

(* /repo/sync.go 273-277: PutUvarint into a buffer of five bytes, index out of range beyond *)
Definition varint32 (n : Z) : res bytes := if n <? 2 ^ 35 then Ok (varint n) else Panic.

(* buf.Write(varint32(len(b))); buf.Write(b), /repo/sync.go 187-188, 235-236 *)
Fixpoint stream (rs : list bytes) : res bytes :=
  match rs with
  | [] => Ok []
  | r :: t => let* n := varint32 (zlen r) in let* rest := stream t in Ok (n ++ r ++ rest)
  end.

(* the fields of a contact that /repo/sync.go 169-180 puts into ContactDetails (proto2, all set) *)
Record contact := mkContact { ct_tel : bytes; ct_uuid : bytes; ct_name : bytes; ct_color : bytes;
  ct_verified : option bytes; ct_blocked : bool; ct_expire : Z }.
Definition contact_slots (c : contact) : slots :=
  [(1, [WLen (ct_tel c)]); (2, [WLen (ct_name c)]); (4, [WLen (ct_color c)]);
   (5, match ct_verified c with Some v => [WLen v] | None => [] end);
   (7, [WVarint (if ct_blocked c then 1 else 0)]); (8, [WVarint (ct_expire c)]); (9, [WLen (ct_uuid c)])].
(* the attachment of sendContactUpdate, /repo/sync.go 155-193 *)
Definition contact_blob (cs : list contact) : res bytes :=
  stream (map (fun c => marshal (contact_slots c)) (filter (fun c => isValidUUID (ct_uuid c)) cs)).

(* GroupDetails, /repo/sync.go 222-228 *)
Record v1group := mkV1 { vg_id : bytes; vg_name : bytes; vg_members : list bytes }.
Definition group_slots (g : v1group) : slots :=
  [(1, [WLen (vg_id g)]); (2, [WLen (vg_name g)]); (3, map WLen (vg_members g))].
Definition group_blob (gs : list v1group) : res bytes := stream (map (fun g => marshal (group_slots g)) gs).
