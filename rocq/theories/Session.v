(* /repo/axolotl/ratchet.go and the session state part of /repo/axolotl/session.go: key derivation,
   chains, decryption of a WhisperMessage by one session state and by a session record. *)
From Coq Require Import ZArith List Lia Bool.
From Verif Require Import Bytes Res Wire Crypto Cbc Messages.
Import ListNotations.
Open Scope Z_scope.

(* The protobuf structures of axolotl/protobuf/LocalStorageProtocol.proto, field for field. A nil
   submessage is None; bytes fields are lists, nil and empty being the same (proto3). *)
Record ckey : Type := mkCk { ck_index : Z; ck_key : bytes }.
Record mkey : Type := mkMk { mk_index : Z; mk_cipher : bytes; mk_mac : bytes; mk_iv : bytes }.
Record chain : Type := mkChain {
  ch_rpub : bytes; ch_rpriv : bytes; ch_ck : option ckey; ch_mks : list mkey }.
Record pending : Type := mkPending { pp_pkid : Z; pp_spkid : Z; pp_base : bytes }.
Record sstate : Type := mkSs {
  s_version : Z; s_local : bytes; s_remote : bytes; s_root : bytes; s_prev : Z;
  s_sender : option chain; s_recv : list chain; s_pending : option pending;
  s_rreg : Z; s_lreg : Z; s_refresh : bool; s_base : bytes }.
(* session.go 252-256; the Go list of pointers to states is a list of states *)
Record srecord : Type := mkSr { r_cur : sstate; r_prevs : list sstate; r_fresh : bool }.

(* &protobuf.SessionStructure{} *)
Definition empty_ss : sstate := mkSs 0 [] [] [] 0 None [] None 0 0 false [].
(* session.go 259-265 *)
Definition NewSessionRecord : srecord := mkSr empty_ss [] true.

(* session.go 38-44 *)
Definition getSessionVersion (s : sstate) : Z := if s_version s =? 0 then 2 else s_version s.

(* field updates (the set* methods of session.go 26-249) *)
Definition with_root s v := mkSs (s_version s) (s_local s) (s_remote s) v (s_prev s) (s_sender s)
  (s_recv s) (s_pending s) (s_rreg s) (s_lreg s) (s_refresh s) (s_base s).
Definition with_prev s v := mkSs (s_version s) (s_local s) (s_remote s) (s_root s) v (s_sender s)
  (s_recv s) (s_pending s) (s_rreg s) (s_lreg s) (s_refresh s) (s_base s).
Definition with_sender s v := mkSs (s_version s) (s_local s) (s_remote s) (s_root s) (s_prev s) v
  (s_recv s) (s_pending s) (s_rreg s) (s_lreg s) (s_refresh s) (s_base s).
Definition with_recv s v := mkSs (s_version s) (s_local s) (s_remote s) (s_root s) (s_prev s) (s_sender s)
  v (s_pending s) (s_rreg s) (s_lreg s) (s_refresh s) (s_base s).
Definition with_pending s v := mkSs (s_version s) (s_local s) (s_remote s) (s_root s) (s_prev s) (s_sender s)
  (s_recv s) v (s_rreg s) (s_lreg s) (s_refresh s) (s_base s).
Definition with_ids s ver l r := mkSs ver l r (s_root s) (s_prev s) (s_sender s)
  (s_recv s) (s_pending s) (s_rreg s) (s_lreg s) (s_refresh s) (s_base s).
Definition with_regs s rreg lreg base := mkSs (s_version s) (s_local s) (s_remote s) (s_root s) (s_prev s)
  (s_sender s) (s_recv s) (s_pending s) rreg lreg (s_refresh s) base.

Definition str_ratchet : bytes := [87;104;105;115;112;101;114;82;97;116;99;104;101;116].
Definition str_text : bytes := [87;104;105;115;112;101;114;84;101;120;116].
Definition str_msgkeys : bytes :=
  [87;104;105;115;112;101;114;77;101;115;115;97;103;101;75;101;121;115].

(* keys.go 73-89 NewECKeyPair: the 32 random bytes after clamping *)
Definition clamp (r : bytes) : bytes :=
  match r with
  | b0 :: t =>
      let t' := firstn 30 t in
      let b31 := nth 30 t 0 in
      Z.land b0 248 :: t' ++ [Z.lor (Z.land b31 63) 64]
  | [] => []
  end.

(* session.go 113-120 getReceiverChain: the first chain with the key *)
Fixpoint find_chain (rk : bytes) (l : list chain) : option chain :=
  match l with
  | [] => None
  | c :: t => if beq rk (ch_rpub c) then Some c else find_chain rk t
  end.
Fixpoint upd_chain (rk : bytes) (f : chain -> chain) (l : list chain) : list chain :=
  match l with
  | [] => []
  | c :: t => if beq rk (ch_rpub c) then f c :: t else c :: upd_chain rk f t
  end.

(* session.go 139-151 addReceiverChain *)
Definition addReceiverChain (l : list chain) (rk : bytes) (ck : ckey) : list chain :=
  let l' := l ++ [mkChain rk [] (Some ck) []] in
  if Nat.ltb 5 (length l') then tl l' else l'.

(* session.go 176-201 hasMessageKeys and removeMessageKeys on the chain's list *)
Fixpoint take_mk (i : Z) (l : list mkey) : option (mkey * list mkey) :=
  match l with
  | [] => None
  | k :: t =>
      if i =? mk_index k then Some (k, t)
      else match take_mk i t with Some (m, r) => Some (m, k :: r) | None => None end
  end.

(* a Go int of w bits made from a uint32 or from a difference of two ints *)
Definition go_int (w x : Z) : Z :=
  let u := x mod 2 ^ w in if u <? 2 ^ (w - 1) then u else u - 2 ^ w.
(* session.go 749: int(counter)-int(chainKey.Index) > 2000 on a w-bit platform *)
Definition too_far (w counter index : Z) : bool :=
  go_int w (go_int w counter - go_int w index) >? 2000.

Section S.
Variable C : crypto.

(* ratchet.go 46-58 createChain: new root key and chain key *)
Definition createChain (root their ourpriv : bytes) : bytes * ckey :=
  let b := hkdf C (dh C ourpriv their) root str_ratchet 64 in
  (firstn 32 b, mkCk 0 (skipn 32 b)).

(* ratchet.go 93-104. The HMAC output is 32 bytes, so the copy into [32]byte is the identity. *)
Definition getNextChainKey (c : ckey) : ckey :=
  mkCk ((ck_index c + 1) mod 2 ^ 32) (hmac C (ck_key c) [2]).

(* ratchet.go 106-118 *)
Definition getMessageKeys (c : ckey) : mkey :=
  let okm := hkdf C (hmac C (ck_key c) [1]) [] str_msgkeys 80 in
  mkMk (ck_index c) (firstn 32 okm) (firstn 32 (skipn 32 okm)) (skipn 64 okm).

(* ratchet.go 125-135 calculateDerivedKeys *)
Definition calculateDerivedKeys (km : bytes) : bytes * ckey :=
  let b := hkdf C km [] str_text 64 in (firstn 32 b, mkCk 0 (skipn 32 b)).

Definition diversifier : bytes := repeat 255 32.

(* newChainKey of a protobuf chain key; a nil chain key is a nil dereference *)
Definition load_ck (o : option ckey) : res ckey :=
  match o with
  | None => Panic
  | Some c => let* k := key32 (ck_key c) in Ok (mkCk (ck_index c) k)
  end.

(* session.go 703-730 getOrCreateChainKey; rnd is the randomness of NewECKeyPair *)
Definition getOrCreateChainKey (s : sstate) (rk rnd : bytes) : res (ckey * sstate) :=
  match find_chain rk (s_recv s) with
  | Some rc => let* c := load_ck (ch_ck rc) in Ok (c, s)
  | None =>
      let* root := key32 (s_root s) in
      match s_sender s with
      | None => Panic                      (* NewECPrivateKey(nil) *)
      | Some sc =>
          let* priv := key32 (ch_rpriv sc) in
          let* _ := key32 (ch_rpub sc) in
          let (root1, rck) := createChain root rk priv in
          let newpriv := clamp rnd in
          let (root2, sck) := createChain root1 rk newpriv in
          let* old := load_ck (ch_ck sc) in
          let pc := if ck_index old >? 0 then ck_index old - 1 else ck_index old in
          let s1 := with_root s root2 in
          let s2 := with_recv s1 (addReceiverChain (s_recv s1) rk rck) in
          let s3 := with_prev s2 pc in
          Ok (rck, with_sender s3 (Some (mkChain (basepub C newpriv) newpriv (Some sck) [])))
      end
  end.

(* session.go 752-759: n times store the message keys and step *)
Fixpoint skip_keys (n : nat) (c : ckey) (acc : list mkey) : ckey * list mkey :=
  match n with
  | O => (c, acc)
  | S n' => skip_keys n' (getNextChainKey c) (acc ++ [getMessageKeys c])
  end.

(* session.go 742-763 getOrCreateMessageKeys. The state is also changed when an error is returned, but
   only by getOrCreateChainKey before it. *)
Definition getOrCreateMessageKeys (s : sstate) (rk : bytes) (c : ckey) (counter : Z)
  : res mkey * sstate :=
  if ck_index c >? counter then
    match find_chain rk (s_recv s) with
    | None => (Err EDuplicate, s)
    | Some rc =>
        match take_mk counter (ch_mks rc) with
        | None => (Err EDuplicate, s)
        | Some (k, rest) =>
            (Ok k, with_recv s (upd_chain rk (fun r => mkChain (ch_rpub r) (ch_rpriv r) (ch_ck r) rest)
                                  (s_recv s)))
        end
    end
  else if too_far 64 counter (ck_index c) then (Err EFuture, s)
  else
    match find_chain rk (s_recv s) with
    | None => (Panic, s)                   (* nil dereference; not reachable after getOrCreateChainKey *)
    | Some rc =>
        let (c', mks) := skip_keys (Z.to_nat (counter - ck_index c)) c (ch_mks rc) in
        (Ok (getMessageKeys c'),
         with_recv s (upd_chain rk (fun r => mkChain (ch_rpub r) (ch_rpriv r)
                                               (Some (getNextChainKey c')) mks) (s_recv s)))
    end.

(* session.go 625-655 sessionState.decrypt: the result and the state afterwards *)
Definition ss_decrypt (s : sstate) (m : wmsg) (rnd : bytes) : res bytes * sstate :=
  match s_sender s with
  | None => (Err EUninit, s)
  | Some _ =>
    if negb (wm_version m =? getSessionVersion s) then (Err EMismatch, s)
    else match getOrCreateChainKey s (wm_rkey m) rnd with
    | Panic => (Panic, s)
    | Err e => (Err e, s)
    | Ok (c, s1) =>
      match getOrCreateMessageKeys s1 (wm_rkey m) c (wm_counter m) with
      | (Panic, s2) => (Panic, s2)
      | (Err e, s2) => (Err e, s2)
      | (Ok mk, s2) =>
        match key32 (s_remote s2), key32 (s_local s2) with
        | Ok rem, Ok loc =>
            if negb (verifyMAC C m rem loc (mk_mac mk)) then (Err EMac, s2)
            else match Decrypt C (mk_cipher mk) (mk_iv mk ++ wm_ct m) with
                 | Ok pt => (Ok pt, with_pending s2 None)
                 | Err e => (Err e, s2)
                 | Panic => (Panic, s2)
                 end
        | _, _ => (Panic, s2)
        end
      end
    end
  end.

(* session.go 310-316 promoteState *)
Definition promoteState (r : srecord) (s : sstate) : srecord :=
  let l := r_cur r :: r_prevs r in
  mkSr s (if Nat.ltb 40 (length l) then removelast l else l) (r_fresh r).
(* session.go 318-320 archiveCurrentState *)
Definition archiveCurrentState (r : srecord) : srecord := promoteState r empty_ss.

(* session.go 615-621: the previous states in order; each one that fails stays changed in place.
   rnd i is the randomness used by state i. Result: the plaintext with the promoted state, and the
   list of previous states afterwards. *)
Fixpoint try_prevs (l : list sstate) (m : wmsg) (rnd : nat -> bytes) (i : nat)
  : res (option (bytes * sstate)) * list sstate :=
  match l with
  | [] => (Ok None, [])
  | s :: t =>
      match ss_decrypt s m (rnd i) with
      | (Ok pt, s') => (Ok (Some (pt, s')), s' :: t)
      | (Panic, s') => (Panic, s' :: t)
      | (Err _, s') =>
          let (r, t') := try_prevs t m rnd (S i) in (r, s' :: t')
      end
  end.

(* session.go 609-623 SessionCipher.decrypt. The promoted state also stays in the list. *)
Definition sc_decrypt (r : srecord) (m : wmsg) (rnd : nat -> bytes) : res bytes * srecord :=
  match ss_decrypt (r_cur r) m (rnd 0%nat) with
  | (Ok pt, s') => (Ok pt, mkSr s' (r_prevs r) (r_fresh r))
  | (Panic, s') => (Panic, mkSr s' (r_prevs r) (r_fresh r))
  | (Err _, s') =>
      match try_prevs (r_prevs r) m rnd 1 with
      | (Ok (Some (pt, s2)), l) => (Ok pt, promoteState (mkSr s' l (r_fresh r)) s2)
      | (Ok None, l) => (Err EInvalidMessage, mkSr s' l (r_fresh r))
      | (Err e, l) => (Err e, mkSr s' l (r_fresh r))
      | (Panic, l) => (Panic, mkSr s' l (r_fresh r))
      end
  end.

Inductive mtype : Type := CIPHERTEXT | PREKEY_BUNDLE.

(* session.go 523-565, without the load and the store: message, type, and the new state. Marshal
   errors do not occur. *)
Definition ss_encrypt (s : sstate) (pt : bytes) : res (bytes * mtype * sstate) :=
  match s_sender s with
  | None => Panic
  | Some sc =>
    let* c := load_ck (ch_ck sc) in
    let mk := getMessageKeys c in
    let* rk := key32 (ch_rpub sc) in
    let* ct := Encrypt C (mk_cipher mk) (mk_iv mk) pt in
    let version := getSessionVersion s mod 256 in
    let* loc := key32 (s_local s) in
    let* rem := key32 (s_remote s) in
    let wm := newWhisperMessage C version (mk_mac mk) rk (ck_index c) (s_prev s) ct loc rem in
    let s' := with_sender s (Some (mkChain (ch_rpub sc) (ch_rpriv sc) (Some (getNextChainKey c)) (ch_mks sc))) in
    match s_pending s with
    | None => Ok (wm_ser wm, CIPHERTEXT, s')
    | Some p =>
        let* base := key_unser (pp_base p) in
        let pk := newPreKeyWhisperMessage version (s_lreg s) (pp_pkid p) (pp_spkid p mod 2 ^ 32) base loc wm in
        Ok (pk_ser pk, PREKEY_BUNDLE, s')
    end
  end.

(* ratchet.go 168-206 initializeSenderSession; version is 3. The private keys are arguments. *)
Definition initializeSenderSession (s : sstate) (our_id_pub our_id_priv our_base_priv their_id
    their_spk : bytes) (their_otk : option bytes) (rnd : bytes) : sstate :=
  let s1 := with_ids s 3 our_id_pub their_id in
  let km := diversifier ++ dh C our_id_priv their_spk ++ dh C our_base_priv their_id
              ++ dh C our_base_priv their_spk
              ++ match their_otk with Some k => dh C our_base_priv k | None => [] end in
  let (root0, _) := calculateDerivedKeys km in
  let priv := clamp rnd in
  let (root1, sck) := createChain root0 their_spk priv in
  let s2 := with_recv s1 (addReceiverChain (s_recv s1) their_spk sck) in
  let s3 := with_sender s2 (Some (mkChain (basepub C priv) priv (Some sck) [])) in
  with_root s3 root1.

(* ratchet.go 208-235 initializeReceiverSession; version is 3 *)
Definition initializeReceiverSession (s : sstate) (our_id_pub our_id_priv spk_pub spk_priv : bytes)
    (otk_priv : option bytes) (their_base their_id : bytes) : sstate :=
  let s1 := with_ids s 3 our_id_pub their_id in
  let km := diversifier ++ dh C spk_priv their_id ++ dh C our_id_priv their_base
              ++ dh C spk_priv their_base
              ++ match otk_priv with Some k => dh C k their_base | None => [] end in
  let (root0, ck0) := calculateDerivedKeys km in
  let s2 := with_sender s1 (Some (mkChain spk_pub spk_priv (Some ck0) [])) in
  with_root s2 root0.
End S.
