(* The public session API of /repo/axolotl/session.go over the store interface of
   /repo/axolotl/store.go: BuildReceiverSession, BuildSenderSession, SessionEncryptMessage,
   SessionDecryptWhisperMessage, SessionDecryptPreKeyWhisperMessage.

   A call is a function of the stored state and of its random inputs. It returns a result and the
   list of store writes it performed, in order. *)
From Coq Require Import ZArith List Lia Bool.
From Verif Require Import Bytes Res Wire Crypto Cbc Messages Session.
Import ListNotations.
Open Scope Z_scope.

Definition keypair : Type := bytes * bytes.      (* private, public *)

(* What the stores hold. Sessions are kept as the pair (current, previous); Fresh is not stored. *)
Record world : Type := mkWorld {
  w_ident : keypair;                                           (* GetIdentityKeyPair *)
  w_reg : Z;                                                   (* GetLocalRegistrationID *)
  w_trust_all : bool;                                          (* config.AlwaysTrustPeerID *)
  w_sess : bytes -> Z -> option (sstate * list sstate);
  w_pre : Z -> option keypair;
  w_spk : Z -> option keypair;
  w_ids : bytes -> option bytes }.

Inductive eff : Type :=
| EStoreSession (rid : bytes) (dev : Z) (cur : sstate) (prevs : list sstate)
| ERemovePreKey (id : Z)
| ESaveIdentity (rid key : bytes).

Definition set_sess w rid dev v := mkWorld (w_ident w) (w_reg w) (w_trust_all w)
  (fun r d => if beq r rid && (d =? dev) then v else w_sess w r d) (w_pre w) (w_spk w) (w_ids w).
Definition set_pre w id v := mkWorld (w_ident w) (w_reg w) (w_trust_all w) (w_sess w)
  (fun i => if i =? id then v else w_pre w i) (w_spk w) (w_ids w).
Definition set_id w rid v := mkWorld (w_ident w) (w_reg w) (w_trust_all w) (w_sess w) (w_pre w) (w_spk w)
  (fun r => if beq r rid then v else w_ids w r).

Definition apply_eff (w : world) (e : eff) : world :=
  match e with
  | EStoreSession rid dev c p => set_sess w rid dev (Some (c, p))
  | ERemovePreKey id => set_pre w id None
  | ESaveIdentity rid k => set_id w rid (Some k)
  end.
Definition apply_effs (w : world) (l : list eff) : world := fold_left apply_eff l w.

(* store.go 418-430 LoadSession *)
Definition LoadSession (w : world) (rid : bytes) (dev : Z) : srecord :=
  match w_sess w rid dev with
  | None => NewSessionRecord
  | Some (c, p) => mkSr c p false
  end.
Definition StoreSession (rid : bytes) (dev : Z) (r : srecord) : eff :=
  EStoreSession rid dev (r_cur r) (r_prevs r).

(* store.go 217-233 IsTrustedIdentity *)
Definition IsTrustedIdentity (w : world) (rid key : bytes) : bool :=
  w_trust_all w ||
  match w_ids w rid with None => true | Some k => beq k key end.

(* session.go 296-308 hasSessionState *)
Definition hasSessionState (r : srecord) (version : Z) (key : bytes) : bool :=
  existsb (fun s => (getSessionVersion s =? version) && beq key (s_base s)) (r_cur r :: r_prevs r).

(* prekeys.go (axolotl) 116-128. The one-time prekey and the signed prekey may be nil. *)
Record bundle : Type := mkBundle {
  b_reg : Z; b_dev : Z;
  b_pkid : Z; b_pk : option bytes;
  b_spkid : Z; b_spk : option bytes; b_sig : bytes;
  b_ident : bytes }.

Section B.
Variable C : crypto.

(* getKeyPair of a stored record: both halves must be 32 bytes *)
Definition load_kp (kp : keypair) : res keypair :=
  let* a := key32 (fst kp) in let* b := key32 (snd kp) in Ok (a, b).

(* session.go 375-430 BuildReceiverSession: prekey id to remove, record afterwards, writes *)
Definition BuildReceiverSession (w : world) (rid : bytes) (r : srecord) (m : pkmsg)
  : res (Z * srecord) * list eff :=
  if negb (pk_version m =? currentVersion) then (Err (EVersion (pk_version m)), [])
  else if negb (IsTrustedIdentity w rid (pk_ident m)) then (Err ENotTrusted, [])
  else if hasSessionState r (pk_version m) (key_ser (pk_base m)) then (Ok (0, r), [])
  else
    let step :=
      let* spk := of_option ENotFound (w_spk w (pk_spkid m)) in
      let* spk := load_kp spk in
      let* otk := (if pk_pkid m =? 0 then Ok None
                   else let* kp := of_option EPreKeyNotFound (w_pre w (pk_pkid m)) in
                        let* kp := load_kp kp in Ok (Some (fst kp))) in
      let r1 := if r_fresh r then r else archiveCurrentState r in
      let s1 := initializeReceiverSession C (r_cur r1) (snd (w_ident w)) (fst (w_ident w))
                  (snd spk) (fst spk) otk (pk_base m) (pk_ident m) in
      let s2 := with_regs s1 (pk_reg m) (w_reg w) (key_ser (pk_base m)) in
      Ok (pk_pkid m, mkSr s2 (r_prevs r1) (r_fresh r1)) in
    match step with
    | Ok v => (Ok v, [ESaveIdentity rid (pk_ident m)])
    | Err e => (Err e, [])
    | Panic => (Panic, [])
    end.

(* session.go 443-499 BuildSenderSession. rbase and rratchet are the randomness of the two
   NewECKeyPair calls. A nil signed prekey is a nil dereference in initializeSenderSession. *)
Definition BuildSenderSession (w : world) (rid : bytes) (dev : Z) (b : bundle) (rbase rratchet : bytes)
  : res unit * list eff :=
  if negb (IsTrustedIdentity w rid (b_ident b)) then (Err ENotTrusted, [])
  else if match b_spk b with
          | Some k => negb (sigok C (b_ident b) (key_ser k) (b_sig b))
          | None => false end then (Err ESignature, [])
  else match b_spk b with
  | None => (Panic, [])
  | Some spk =>
    let r := LoadSession w rid dev in
    let r1 := if r_fresh r then r else archiveCurrentState r in
    let bpriv := clamp rbase in
    let s1 := initializeSenderSession C (r_cur r1) (snd (w_ident w)) (fst (w_ident w)) bpriv
                (b_ident b) spk (b_pk b) rratchet in
    let bpub := basepub C bpriv in
    let s2 := with_pending s1 (Some (mkPending (b_pkid b) (b_spkid b) (key_ser bpub))) in
    let s3 := with_regs s2 (b_reg b) (w_reg w) (key_ser bpub) in
    (Ok tt, [EStoreSession rid dev s3 (r_prevs r1); ESaveIdentity rid (b_ident b)])
  end.

(* session.go 523-572 SessionEncryptMessage *)
Definition SessionEncryptMessage (w : world) (rid : bytes) (dev : Z) (pt : bytes)
  : res (bytes * mtype) * list eff :=
  let r := LoadSession w rid dev in
  match ss_encrypt C (r_cur r) pt with
  | Ok (msg, ty, s') => (Ok (msg, ty), [EStoreSession rid dev s' (r_prevs r)])
  | Err e => (Err e, [])
  | Panic => (Panic, [])
  end.

(* session.go 658-674 SessionDecryptWhisperMessage *)
Definition SessionDecryptWhisperMessage (w : world) (rid : bytes) (dev : Z) (m : wmsg)
    (rnd : nat -> bytes) : res bytes * list eff :=
  match sc_decrypt C (LoadSession w rid dev) m rnd with
  | (Ok pt, r') => (Ok pt, [StoreSession rid dev r'])
  | (Err e, _) => (Err e, [])
  | (Panic, _) => (Panic, [])
  end.

(* session.go 677-701 SessionDecryptPreKeyWhisperMessage *)
Definition SessionDecryptPreKeyWhisperMessage (w : world) (rid : bytes) (dev : Z) (m : pkmsg)
    (rnd : nat -> bytes) : res bytes * list eff :=
  match BuildReceiverSession w rid (LoadSession w rid dev) m with
  | (Err e, l) => (Err e, l)
  | (Panic, l) => (Panic, l)
  | (Ok (pkid, r1), l) =>
      match sc_decrypt C r1 (pk_msg m) rnd with
      | (Ok pt, r') =>
          (Ok pt, l ++ (if pkid =? 16777215 then [] else [ERemovePreKey pkid])
                    ++ [StoreSession rid dev r'])
      | (Err e, _) => (Err e, l)
      | (Panic, _) => (Panic, l)
      end
  end.

(* The whole reception of one message of a given envelope type by the session layer
   (textsecure.go 584-607): parse, then decrypt. *)
Definition receive (w : world) (rid : bytes) (dev : Z) (ty : mtype) (msg : bytes) (rnd : nat -> bytes)
  : res bytes * list eff :=
  match ty with
  | CIPHERTEXT =>
      match LoadWhisperMessage msg with
      | Ok m => SessionDecryptWhisperMessage w rid dev m rnd
      | Err e => (Err e, [])
      | Panic => (Panic, [])
      end
  | PREKEY_BUNDLE =>
      match LoadPreKeyWhisperMessage msg with
      | Ok m => SessionDecryptPreKeyWhisperMessage w rid dev m rnd
      | Err e => (Err e, [])
      | Panic => (Panic, [])
      end
  end.
End B.
