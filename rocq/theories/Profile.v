(* Profile names: /repo/profiles/profile.go 28-138, 160-331. The profile key, the nonce and the
   answers of the server are arguments; of the profile only the fields that are decrypted are kept. *)
From Coq Require Import ZArith List Lia Bool.
From Verif Require Import Bytes Res Crypto Gcm Encodings.
Import ListNotations.
Open Scope Z_scope.

(* line 28 *)
Definition NAME_PADDED_LENGTH : nat := 53.

Section P.
Variable G : gcm.

(* encryptName (104-117) *)
Definition encryptName (key nonce input : bytes) (padded : nat) : res bytes :=
  if (padded <? length input)%nat then Err EBadFormat
  else
    let* c := AesgcmEncrypt G key nonce (input ++ zeros (padded - length input)) in
    Ok (nonce ++ c).

(* lines 130-136: the loop from the end to the last byte that is not zero *)
Fixpoint plain_length (padded : bytes) (n : nat) : nat :=
  match n with
  | O => O
  | S i => if nth i padded 0 =? 0 then plain_length padded i else S i
  end.

(* decryptName (119-138) *)
Definition decryptName (key nc : bytes) : res bytes :=
  if (length nc <? 29)%nat then Err EBadFormat
  else
    let* p := AesgcmDecrypt G key (firstn 12 nc) (skipn 12 nc) [] in
    Ok (firstn (plain_length p (length p)) p).

(* decryptString (321-331) *)
Definition decryptString (key data : bytes) : res bytes :=
  let* b := dec64 data in decryptName key b.

(* Profile (144-158) *)
Record profile := mkProfile { pf_identity : bytes; pf_name : bytes; pf_about : bytes; pf_emoji : bytes }.
(* a JSON answer: a field that is absent is left as it is by json.Unmarshal *)
Record jprofile := mkJ { j_identity : option bytes; j_name : option bytes; j_about : option bytes; j_emoji : option bytes }.
Definition over (o : option bytes) (old : bytes) : bytes := match o with Some x => x | None => old end.
Definition unmarshal_profile (j : jprofile) (p : profile) : profile :=
  mkProfile (over (j_identity j) (pf_identity p)) (over (j_name j) (pf_name p)) (over (j_about j) (pf_about p))
    (over (j_emoji j) (pf_emoji p)).

Definition nonempty (b : bytes) : bool := match b with [] => false | _ => true end.

(* decryptProfile (280-319): the profile as it is left, and the error if any. Fields decrypted before a
   failure stay decrypted. *)
Definition decryptProfile (key : bytes) (p : profile) : profile * res unit :=
  match key with
  | [] => (p, Err EOther)
  | _ =>
      let ident p := match dec64 (pf_identity p) with
                     | Ok i => (mkProfile i (pf_name p) (pf_about p) (pf_emoji p), Ok tt)
                     | Err e => (p, Err e) | Panic => (p, Panic) end in
      let emoji p := if nonempty (pf_emoji p) then
                       match decryptString key (pf_emoji p) with
                       | Ok x => ident (mkProfile (pf_identity p) (pf_name p) (pf_about p) x)
                       | Err e => (p, Err e) | Panic => (p, Panic) end
                     else ident p in
      let about p := if nonempty (pf_about p) then
                       match decryptString key (pf_about p) with
                       | Ok x => emoji (mkProfile (pf_identity p) (pf_name p) x (pf_emoji p))
                       | Err e => (p, Err e) | Panic => (p, Panic) end
                     else emoji p in
      if nonempty (pf_name p) then
        match decryptString key (pf_name p) with
        | Ok x => about (mkProfile (pf_identity p) x (pf_about p) (pf_emoji p))
        | Err e => (p, Err e) | Panic => (p, Panic) end
      else ident p
  end.

Definition no_profile : profile := mkProfile [] [] [] [].

(* GetProfile (160-200): r1 and r2 are the two answers after decoding. An error of decryptProfile is only
   logged (180-184). *)
Definition GetProfile (key : bytes) (r1 : res jprofile) (r2 : profile -> res jprofile) : res profile :=
  let* j1 := r1 in
  let p1 := unmarshal_profile j1 no_profile in
  let (p2, e) := decryptProfile key p1 in
  match e with
  | Panic => Panic
  | _ => let* j2 := r2 p2 in Ok (unmarshal_profile j2 p2)
  end.

(* GetProfileAndCredential (202-279), up to the decrypted profile (243-254) *)
Definition GetProfileAndCredential_profile (key : bytes) (r : res jprofile) : res profile :=
  let* j := r in
  let (p, e) := decryptProfile key (unmarshal_profile j no_profile) in
  let* _ := e in Ok p.

(* UpdateProfile (55-84): the name as it is sent; encoding/json writes a []byte in base64 *)
Definition published_name (key nonce name : bytes) : res bytes :=
  let* c := encryptName key nonce name NAME_PADDED_LENGTH in Ok (enc64 c).
End P.
