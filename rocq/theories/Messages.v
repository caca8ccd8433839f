(* /repo/axolotl/keys.go and /repo/axolotl/messages.go: key encodings, WhisperMessage and
   PreKeyWhisperMessage. *)
From Coq Require Import ZArith List Lia Bool.
From Verif Require Import Bytes Res Wire Crypto Cbc.
Import ListNotations.
Open Scope Z_scope.

(* keys.go 28-32 ensureKeyLength, with the key as result; also NewECPrivateKey 35-40, NewECPublicKey
   48-53, NewIdentityKey 104-109, newRootKey (ratchet.go 39-44), newChainKey (65-70) *)
Definition key32 (b : bytes) : res bytes :=
  if Nat.eqb (length b) 32 then Ok b else Panic.

(* keys.go 62-64 ECPublicKey.Serialize *)
Definition key_ser (k : bytes) : bytes := 5 :: k.

(* b[1:] and then NewECPublicKey / NewIdentityKey. The first byte is not looked at. *)
Definition key_unser (b : bytes) : res bytes :=
  match b with [] => Panic | _ :: k => key32 k end.

(* messages.go 16-23 *)
Record wmsg : Type := mkWmsg {
  wm_version : Z;
  wm_rkey : bytes;          (* 32 bytes *)
  wm_counter : Z;           (* uint32 *)
  wm_prev : Z;              (* uint32 *)
  wm_ct : bytes;
  wm_ser : bytes
}.

Definition macLength : nat := 8.
Definition currentVersion : Z := 3.

(* messages.go 29-35 *)
Definition highBitsToInt (b : Z) : Z := Z.shiftr (Z.land b 240) 4.
Definition makeVersionByte (hi lo : Z) : Z := Z.lor (Z.shiftl hi 4 mod 256) lo.

(* messages.go 41-72 *)
Definition LoadWhisperMessage (ser : bytes) : res wmsg :=
  if zlen ser - 8 <? 1 then Err EIncomplete
  else
    let version := highBitsToInt (hd 0 ser) in
    let message := skipn 1 (firstn (length ser - macLength) ser) in
    if negb (version =? currentVersion) then Err (EVersion version)
    else match parse message with
    | None => Err EProto
    | Some fs =>
        match get_len 4 fs, get_len 1 fs with
        | Some ct, Some rk =>
            let counter := match get_varint 2 fs with Some c => to_u32 c | None => 0 end in
            let prev := match get_varint 3 fs with Some c => to_u32 c | None => 0 end in
            let* k := key_unser rk in
            Ok (mkWmsg version k counter prev ct ser)
        | _, _ => Err EIncomplete
        end
    end.

Section M.
Variable C : crypto.

(* messages.go 109-117 *)
Definition getMac (version : Z) (sender receiver macKey ser : bytes) : bytes :=
  let ids := if version >=? 3 then key_ser sender ++ key_ser receiver else [] in
  ComputeTruncatedMAC C (ids ++ ser) macKey macLength.

(* messages.go 119-125 *)
Definition verifyMAC (m : wmsg) (sender receiver macKey : bytes) : bool :=
  let macpos := (length (wm_ser m) - macLength)%nat in
  beq (getMac (wm_version m) sender receiver macKey (firstn macpos (wm_ser m)))
      (skipn macpos (wm_ser m)).

Definition whisper_fields (rkey : bytes) (counter prev : Z) (ct : bytes) : list wfield :=
  [(1, WLen (key_ser rkey)); (2, WVarint counter); (3, WVarint prev); (4, WLen ct)].

(* messages.go 74-107 *)
Definition newWhisperMessage (version : Z) (macKey rkey : bytes) (counter prev : Z) (ct : bytes)
    (sender receiver : bytes) : wmsg :=
  let data := makeVersionByte version currentVersion :: encode (whisper_fields rkey counter prev ct) in
  mkWmsg version rkey counter prev ct (data ++ getMac version sender receiver macKey data).
End M.

(* messages.go 133-142 *)
Record pkmsg : Type := mkPkmsg {
  pk_version : Z;
  pk_reg : Z;
  pk_pkid : Z;
  pk_spkid : Z;
  pk_base : bytes;
  pk_ident : bytes;
  pk_msg : wmsg;
  pk_ser : bytes
}.

(* messages.go 148-184. Index 0 of an empty input panics. *)
Definition LoadPreKeyWhisperMessage (ser : bytes) : res pkmsg :=
  match ser with
  | [] => Panic
  | b0 :: body =>
    let version := highBitsToInt b0 in
    if negb (version =? currentVersion) then Err (EVersion version)
    else match parse body with
    | None => Err EProto
    | Some fs =>
        let u n := match get_varint n fs with Some c => to_u32 c | None => 0 end in
        match get_len 2 fs, get_len 3 fs, get_len 4 fs with
        | Some base, Some ident, Some msg =>
            if u 6 =? 0 then Err EIncomplete
            else
              let* wm := LoadWhisperMessage msg in
              let* bk := key_unser base in
              let* ik := key_unser ident in
              Ok (mkPkmsg version (u 5) (u 1) (u 6) bk ik wm ser)
        | _, _, _ => Err EIncomplete
        end
    end
  end.

Definition prekey_fields (reg pkid spkid : Z) (base ident msg : bytes) : list wfield :=
  [(1, WVarint pkid); (2, WLen (key_ser base)); (3, WLen (key_ser ident)); (4, WLen msg);
   (5, WVarint reg); (6, WVarint spkid)].

(* messages.go 186-214 *)
Definition newPreKeyWhisperMessage (version reg pkid spkid : Z) (base ident : bytes) (wm : wmsg) : pkmsg :=
  let v := makeVersionByte version currentVersion in
  mkPkmsg v reg pkid spkid base ident wm
    (v :: encode (prekey_fields reg pkid spkid base ident (wm_ser wm))).
