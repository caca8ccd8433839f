(* Access keys for sealed messages and profiles: what the account publishes, what is presented for others. Model of
   /repo/unidentifiedAccess/unidentifiedAccess.go 17-33 and 60-181, /repo/server.go 215-285 and 311-361 and the requests of
   /repo/profiles/profile.go 160-201. *)
From Coq Require Import ZArith List Lia Bool.
From Verif Require Import Bytes Res Wire Crypto Gcm Encodings Linking.
Import ListNotations.
Open Scope Z_scope.

Section Access.
Variable G : gcm.

(* DeriveAccessKeyFrom (17-33) *)
Definition DeriveAccessKeyFrom (key : bytes) : res bytes :=
  if negb (aes_key_ok key) then Err EKeySize else Ok (firstn 16 (seal G key (zeros 12) [] (zeros 16))).

(* AccountCapabilities (/repo/config/config.go 38-48) *)
Record caps := mkCaps { gv2 : bool; senderKey : bool; announcementGroup : bool; changeNumber : bool; stories : bool; giftBadges : bool;
  storage : bool; gv1Migration : bool }.
(* the part of AccountAttributes (server.go 180-207) that is looked at here *)
Record attributes := mkAttr { aa_key : bytes; aa_unrestricted : bool; aa_caps : caps; aa_discoverable : bool }.

(* verifyCode (server.go 215-243): what is sent. The error of DeriveAccessKeyFrom is only logged. *)
Definition verify_attributes (priv : bytes) : attributes :=
  mkAttr (match DeriveAccessKeyFrom priv with Ok k => k | _ => [] end) false
    (mkCaps true false true false false false false false) true.
(* SetAccountCapabilities (311-332) *)
Definition update_attributes (priv : bytes) (c : caps) : res attributes :=
  let* k := DeriveAccessKeyFrom priv in Ok (mkAttr k true c true).

(* A call and what the server answers to it: None is an error of the transport, Some the status. After the attributes the
   profile is fetched (354), whose outcome is given too. *)
Inductive acall :=
| VerifyCode (put : option Z)
| SetCapabilities (c : caps) (put : option Z) (profile : res unit).
(* config.ConfigFile.AccountCapabilities, and the requests that were sent with their answers *)
Record astate := mkA { a_caps : caps; a_sent : list (attributes * option Z) }.

(* verifyCode (253-284) and setAccountAttributes (342-361) *)
Definition acall_step (priv : bytes) (x : acall) (s : astate) : astate * res unit :=
  match x with
  | VerifyCode put =>
      let at_ := verify_attributes priv in
      let s1 := mkA (a_caps s) (a_sent s ++ [(at_, put)]) in
      match put_result put with
      | Ok _ => (mkA (aa_caps at_) (a_sent s1), Ok tt)
      | r => (s1, r)
      end
  | SetCapabilities c put profile =>
      match update_attributes priv c with
      | Err e => (s, Err e)
      | Panic => (s, Panic)
      | Ok at_ =>
          let s1 := mkA (a_caps s) (a_sent s ++ [(at_, put)]) in
          match put_result put with
          | Ok _ => match profile with
                    | Ok _ => (mkA c (a_sent s1), Ok tt)
                    | r => (s1, r)
                    end
          | r => (s1, r)
          end
      end
  end.
Fixpoint acalls (priv : bytes) (l : list acall) (s : astate) : astate * list (res unit) :=
  match l with
  | [] => (s, [])
  | x :: t => let '(s1, r) := acall_step priv x s in let '(s2, rs) := acalls priv t s1 in (s2, r :: rs)
  end.

(* GetProfile (profile.go 160-201): the requests it makes for a user, as the text of the header Unidentified-Access-Key. own is
   config.ConfigFile.ProfileKey; answer is the string unidentifiedAccess in the first answer, None if that cannot be decoded. The
   key of the user is used for decrypting only. *)
Definition GetProfile_keys (own key : bytes) (answer : option bytes) : res (list bytes) :=
  let* k := DeriveAccessKeyFrom own in
  Ok (enc64 k :: match answer with Some a => [enc64 a] | None => [] end).

(* ---- access pairs ---- *)
Record access := mkAccess { ua_key : bytes; ua_cert : bytes }.
Record pair := mkPair { target : access; self : access }.
(* contact.ProfileKey: None is nil *)
Definition profile_key := option bytes.

(* GetTargetUnidentifiedAccessKey (80-89), with the random token *)
Definition GetTargetUnidentifiedAccessKey (k : profile_key) (token : bytes) : res bytes :=
  match k with Some k => DeriveAccessKeyFrom k | None => Ok token end.
(* GetOurCertificate (146-154): ServerCertificate.certificate is field 1. log.Fatalln ends the process. *)
Definition GetOurCertificate (conf : bytes) : res bytes :=
  match parse conf with
  | None => Panic
  | Some m => Ok (match get_len 1 m with Some c => c | None => [] end)
  end.
(* GetAccessFor (91-121): the loop *)
Fixpoint pairs_for (ours : access) (l : list (profile_key * bytes)) : res (list pair) :=
  match l with
  | [] => Ok []
  | (k, token) :: t =>
      let* x := GetTargetUnidentifiedAccessKey k token in
      let* r := pairs_for ours t in
      Ok (mkPair (mkAccess x (ua_cert ours)) ours :: r)
  end.
Definition GetAccessFor (own conf : bytes) (l : list (profile_key * bytes)) : res (list pair) :=
  let* k := DeriveAccessKeyFrom own in
  let* c := GetOurCertificate conf in
  pairs_for (mkAccess k c) l.
(* GetAccessForUUID (122-145): the error for the key of the recipient is not looked at *)
Definition GetAccessForUUID (own conf : bytes) (k : profile_key) (token : bytes) : res pair :=
  let* o := DeriveAccessKeyFrom own in
  let* c := GetOurCertificate conf in
  Ok (mkPair (mkAccess (match GetTargetUnidentifiedAccessKey k token with Ok x => x | _ => [] end) c) (mkAccess o c)).
End Access.
