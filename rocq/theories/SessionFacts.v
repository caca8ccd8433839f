(* Facts about the session state machine that hold for arbitrary states and messages *)
From Coq Require Import ZArith List Lia Bool.
From Verif Require Import Bytes Res Wire WireProofs Crypto Cbc CbcProofs Messages MessagesProofs Session
  Builder SessionProofs.
Import ListNotations.
Open Scope Z_scope.

(* ---- specification side ---- *)
(* number of skipped message keys kept by a state *)
Definition nkeys (s : sstate) : nat := fold_right (fun c n => (length (ch_mks c) + n)%nat) 0%nat (s_recv s).

(* position of the receiving chain with a ratchet key; a chain that does not exist yet is at 0 *)
Definition chain_index (s : sstate) (rk : bytes) : Z :=
  match find_chain rk (s_recv s) with
  | Some c => match ch_ck c with Some k => ck_index k | None => 0 end
  | None => 0
  end.

(* the message keys that belong to a ratchet key and counter, seen from a state *)
Definition pos_key (C : crypto) (s : sstate) (rk : bytes) (counter : Z) : option mkey :=
  match find_chain rk (s_recv s) with
  | Some c =>
      match ch_ck c with
      | Some k => if ck_index k >? counter then option_map fst (take_mk counter (ch_mks c))
                  else Some (getMessageKeys C (ckn C k (Z.to_nat (counter - ck_index k))))
      | None => None
      end
  | None =>
      match s_sender s with
      | Some sc => Some (getMessageKeys C
                     (ckn C (snd (createChain C (s_root s) rk (ch_rpriv sc))) (Z.to_nat counter)))
      | None => None
      end
  end.

(* the last eight bytes authenticate everything before them and both identities *)
Definition mac_valid (C : crypto) (key sender receiver b : bytes) : Prop :=
  skipn (length b - 8) b
  = firstn 8 (hmac C key ((5 :: sender) ++ (5 :: receiver) ++ firstn (length b - 8) b)).

(* ---- proofs ---- *)
Lemma load_ck_inv o c : load_ck o = Ok c -> o = Some c /\ length (ck_key c) = 32%nat.
Proof.
  unfold load_ck. destruct o as [[i k]|]; [|discriminate]. intros H. apply bind_ok in H.
  destruct H as (a & H1 & H2). apply key32_inv in H1. destruct H1 as [-> H1].
  injection H2 as <-. auto.
Qed.

Section F.
Variable C : crypto.

(* what getOrCreateChainKey does when it succeeds *)
Lemma gocck_inv s rk rnd c s1 : getOrCreateChainKey C s rk rnd = Ok (c, s1) ->
  (exists rc, find_chain rk (s_recv s) = Some rc /\ ch_ck rc = Some c /\ s1 = s) \/
  (exists sc old, find_chain rk (s_recv s) = None /\ s_sender s = Some sc /\ ch_ck sc = Some old /\
     length (s_root s) = 32%nat /\
     c = snd (createChain C (s_root s) rk (ch_rpriv sc)) /\
     s_recv s1 = addReceiverChain (s_recv s) rk c /\
     s_sender s1 = Some (mkChain (basepub C (clamp rnd)) (clamp rnd)
        (Some (snd (createChain C (fst (createChain C (s_root s) rk (ch_rpriv sc))) rk (clamp rnd)))) []) /\
     s_root s1 = fst (createChain C (fst (createChain C (s_root s) rk (ch_rpriv sc))) rk (clamp rnd)) /\
     s_remote s1 = s_remote s /\ s_local s1 = s_local s /\ s_version s1 = s_version s /\
     s_pending s1 = s_pending s /\ s_base s1 = s_base s /\ s_rreg s1 = s_rreg s /\ s_lreg s1 = s_lreg s).
Proof.
  unfold getOrCreateChainKey. destruct (find_chain rk (s_recv s)) as [rc|] eqn:F.
  - intros H. apply bind_ok in H. destruct H as (a & H1 & H2). injection H2 as <- <-.
    apply load_ck_inv in H1. left. exists rc. tauto.
  - intros H. right. apply bind_ok in H. destruct H as (root & H1 & H).
    apply key32_inv in H1. destruct H1 as [-> Hroot].
    destruct (s_sender s) as [sc|] eqn:Es; [|discriminate].
    apply bind_ok in H. destruct H as (priv & H1 & H). apply key32_inv in H1. destruct H1 as [-> _].
    apply bind_ok in H. destruct H as (pub & _ & H).
    destruct (createChain C (s_root s) rk (ch_rpriv sc)) as [root1 rck] eqn:E1.
    destruct (createChain C root1 rk (clamp rnd)) as [root2 sck] eqn:E2.
    apply bind_ok in H. destruct H as (old & H1 & H). apply load_ck_inv in H1. destruct H1 as [H1 _].
    injection H as <- <-. exists sc, old. rewrite E1. cbn [fst snd]. rewrite E2. cbn [fst snd].
    repeat split; auto.
Qed.

Lemma gocck_find s rk rnd c s1 : getOrCreateChainKey C s rk rnd = Ok (c, s1) ->
  exists rc, find_chain rk (s_recv s1) = Some rc /\ ch_ck rc = Some c.
Proof.
  intros H. apply gocck_inv in H. destruct H as [(rc & H1 & H2 & ->)|(sc & old & F & _ & _ & _ & _ & R & _)]; eauto.
  rewrite R. exists (mkChain rk [] (Some c) []). split; [|reflexivity].
  assert (G : find_chain rk (s_recv s ++ [mkChain rk [] (Some c) []]) = Some (mkChain rk [] (Some c) [])).
  { rewrite find_chain_app, F. cbn [find_chain ch_rpub]. now rewrite beq_refl. }
  unfold addReceiverChain. destruct (Nat.ltb_spec 5 (length (s_recv s ++ [mkChain rk [] (Some c) []]))); auto.
  destruct (s_recv s) as [|x l] eqn:ER; [cbn in *; lia|].
  cbn [app tl]. cbn [app find_chain] in G.
  destruct (beq rk (ch_rpub x)) eqn:B; auto.
  cbn [find_chain] in F. rewrite B in F. discriminate.
Qed.

Lemma gocmk_inv s1 rk c counter r s2 rc :
  find_chain rk (s_recv s1) = Some rc -> ch_ck rc = Some c ->
  getOrCreateMessageKeys C s1 rk c counter = (r, s2) ->
  (exists e, r = Err e /\ s2 = s1) \/
  exists mk f, r = Ok mk /\ s2 = with_recv s1 (upd_chain rk f (s_recv s1)) /\
     ch_rpub (f rc) = ch_rpub rc /\
     ((ck_index c > counter /\ option_map fst (take_mk counter (ch_mks rc)) = Some mk /\
         take_mk counter (ch_mks rc) = Some (mk, ch_mks (f rc)) /\ ch_ck (f rc) = ch_ck rc) \/
      (ck_index c <= counter /\ too_far 64 counter (ck_index c) = false /\
         mk = getMessageKeys C (ckn C c (Z.to_nat (counter - ck_index c))) /\
         ch_ck (f rc) = Some (ckn C c (S (Z.to_nat (counter - ck_index c)))) /\
         ch_mks (f rc) = ch_mks rc ++ map (fun i => getMessageKeys C (ckn C c i))
                                          (seq 0 (Z.to_nat (counter - ck_index c))))).
Proof.
  intros F Hc. unfold getOrCreateMessageKeys. rewrite F.
  destruct (Z.gtb_spec (ck_index c) counter) as [G|G].
  - destruct (take_mk counter (ch_mks rc)) as [[k rest]|] eqn:T; intros H; injection H as <- <-; eauto.
    right. eexists k, _. split; [reflexivity|]. split; [reflexivity|]. split; [reflexivity|].
    left. repeat split; auto. lia.
  - destruct (too_far 64 counter (ck_index c)) eqn:TF.
    { intros H; injection H as <- <-; eauto. }
    rewrite skip_keys_spec. intros H. injection H as <- <-.
    right. eexists _, _. split; [reflexivity|]. split; [reflexivity|]. split; [reflexivity|].
    right. repeat split; auto.
Qed.

Lemma take_mk_length i l k rest : take_mk i l = Some (k, rest) -> (length rest < length l)%nat.
Proof.
  revert k rest; induction l as [|x l IH]; intros k rest; cbn [take_mk]; [discriminate|].
  destruct (i =? mk_index x).
  - intros H; injection H as <- <-. cbn; lia.
  - destruct (take_mk i l) as [[m r]|]; [|discriminate]. intros H; injection H as <- <-.
    specialize (IH _ _ eq_refl). cbn [length]. lia.
Qed.

Definition nk (l : list chain) : nat := fold_right (fun c n => (length (ch_mks c) + n)%nat) 0%nat l.

Lemma nk_app a b : nk (a ++ b) = (nk a + nk b)%nat.
Proof. induction a; cbn [app nk fold_right]; auto. unfold nk in *. lia. Qed.

Lemma nk_upd rk f l rc n : find_chain rk l = Some rc ->
  (length (ch_mks (f rc)) <= length (ch_mks rc) + n)%nat -> (nk (upd_chain rk f l) <= nk l + n)%nat.
Proof.
  induction l as [|x l IH]; cbn [find_chain upd_chain]; [discriminate|].
  destruct (beq rk (ch_rpub x)).
  - intros H; injection H as ->. intros H. cbn [nk fold_right]. unfold nk. lia.
  - intros H1 H2. specialize (IH H1 H2). cbn [nk fold_right]. unfold nk in IH. lia.
Qed.

Lemma nk_add l rk ck : (nk (addReceiverChain l rk ck) <= nk l)%nat.
Proof.
  assert (E : nk (l ++ [mkChain rk [] (Some ck) []]) = nk l) by (rewrite nk_app; cbn; lia).
  unfold addReceiverChain. destruct (Nat.ltb _ _); [|lia].
  destruct (l ++ [mkChain rk [] (Some ck) []]) eqn:E2; cbn [tl nk fold_right] in *; unfold nk in *; cbn [fold_right] in *; lia.
Qed.

Lemma Decrypt_err key ct e : Decrypt C key ct = Err e -> e <> EFuture /\ e <> EDuplicate.
Proof.
  unfold Decrypt. destruct (negb (aes_key_ok key)); [intros H; injection H as <-; split; congruence|].
  destruct (negb _); [intros H; injection H as <-; split; congruence|].
  destruct (length ct); [discriminate|]. cbv zeta.
  destruct (_ >? _); [intros H; injection H as <-; split; congruence|].
  destruct (_ <? _); discriminate.
Qed.

(* everything about one call of sessionState.decrypt *)
Lemma ss_decrypt_cases s m rnd r s' : ss_decrypt C s m rnd = (r, s') ->
  (s' = s /\ (forall pt, r <> Ok pt) /\
     (r = Err EUninit \/ r = Err EMismatch \/ r = Panic \/
      exists e, r = Err e /\ getOrCreateChainKey C s (wm_rkey m) rnd = Err e)) \/
  exists c s1 rc, getOrCreateChainKey C s (wm_rkey m) rnd = Ok (c, s1) /\
    find_chain (wm_rkey m) (s_recv s1) = Some rc /\ ch_ck rc = Some c /\
    wm_version m = getSessionVersion s /\
    ((exists e, getOrCreateMessageKeys C s1 (wm_rkey m) c (wm_counter m) = (Err e, s1) /\ r = Err e /\ s' = s1) \/
     exists mk s2, getOrCreateMessageKeys C s1 (wm_rkey m) c (wm_counter m) = (Ok mk, s2) /\
       (((forall pt, r <> Ok pt) /\ s' = s2 /\ r <> Err EFuture /\ r <> Err EDuplicate) \/
        (exists pt, r = Ok pt /\ s' = with_pending s2 None /\
           length (s_remote s2) = 32%nat /\ length (s_local s2) = 32%nat /\
           verifyMAC C m (s_remote s2) (s_local s2) (mk_mac mk) = true /\
           Decrypt C (mk_cipher mk) (mk_iv mk ++ wm_ct m) = Ok pt))).
Proof.
  unfold ss_decrypt. destruct (s_sender s) as [sc|] eqn:Es.
  2:{ intros H; injection H as <- <-. left. split; auto. split; [congruence|auto]. }
  destruct (Z.eqb_spec (wm_version m) (getSessionVersion s)) as [Ev|Ev]; cbn [negb].
  2:{ intros H; injection H as <- <-. left. split; auto. split; [congruence|auto]. }
  destruct (getOrCreateChainKey C s (wm_rkey m) rnd) as [[c s1]|e|] eqn:G.
  2:{ intros H; injection H as <- <-. left. split; auto. split; [congruence|]. eauto 6. }
  2:{ intros H; injection H as <- <-. left. split; auto. split; [congruence|auto]. }
  destruct (gocck_find _ _ _ _ _ G) as (rc & F & Hc).
  intros H. right. exists c, s1, rc. split; auto. split; auto. split; auto. split; auto.
  destruct (getOrCreateMessageKeys C s1 (wm_rkey m) c (wm_counter m)) as [[mk|e|] s2] eqn:G2.
  - right. exists mk, s2. split; auto.
    destruct (key32 (s_remote s2)) as [rem| |] eqn:K1.
    + apply key32_inv in K1. destruct K1 as [-> K1].
      destruct (key32 (s_local s2)) as [loc| |] eqn:K2.
      * apply key32_inv in K2. destruct K2 as [-> K2].
        destruct (verifyMAC C m (s_remote s2) (s_local s2) (mk_mac mk)) eqn:V; cbn [negb] in H.
        -- destruct (Decrypt C (mk_cipher mk) (mk_iv mk ++ wm_ct m)) as [pt|e|] eqn:D; injection H as <- <-.
           ++ right. exists pt. repeat split; auto.
           ++ left. repeat split; try congruence.
              ** intros X. injection X as ->. now apply Decrypt_err in D.
              ** intros X. injection X as ->. now apply Decrypt_err in D.
           ++ left. repeat split; congruence.
        -- injection H as <- <-. left. repeat split; congruence.
      * injection H as <- <-. left. repeat split; congruence.
      * injection H as <- <-. left. repeat split; congruence.
    + injection H as <- <-. left. repeat split; congruence.
    + injection H as <- <-. left. repeat split; congruence.
  - left. destruct (gocmk_inv _ _ _ _ _ _ _ F Hc G2) as [(e' & E1 & E2)|(mk & f & E1 & _)]; [|discriminate].
    subst. injection E1 as <-. injection H as <- <-. eauto.
  - exfalso. destruct (gocmk_inv _ _ _ _ _ _ _ F Hc G2) as [(e' & E1 & E2)|(mk & f & E1 & _)]; discriminate.
Qed.

Lemma gocck_frame s rk rnd c s1 : getOrCreateChainKey C s rk rnd = Ok (c, s1) ->
  s_remote s1 = s_remote s /\ s_local s1 = s_local s /\ s_version s1 = s_version s /\ s_base s1 = s_base s.
Proof.
  intros H. apply gocck_inv in H. destruct H as [(rc & _ & _ & ->)|(sc & old & H)]; auto. tauto.
Qed.

Lemma gocmk_frame s1 rk c counter r s2 : getOrCreateMessageKeys C s1 rk c counter = (r, s2) ->
  s_remote s2 = s_remote s1 /\ s_local s2 = s_local s1 /\ s_version s2 = s_version s1 /\
  s_base s2 = s_base s1 /\ s_sender s2 = s_sender s1 /\ s_root s2 = s_root s1 /\
  length (s_recv s2) = length (s_recv s1) /\ s_prev s2 = s_prev s1 /\ s_pending s2 = s_pending s1.
Proof.
  unfold getOrCreateMessageKeys.
  repeat match goal with |- context [if ?b then _ else _] => destruct b end;
  destruct (find_chain rk (s_recv s1)) as [rc|]; try destruct (take_mk counter (ch_mks rc)) as [[k rest]|];
  try destruct (skip_keys C _ _ _) as [c' mks];
  intros H; injection H as <- <-; cbn; rewrite ?upd_chain_length; repeat split.
Qed.

(* the message keys used are those of the position *)
Lemma pos_key_used s m rnd c s1 mk s2 : 0 <= wm_counter m ->
  crypto_ok C ->
  getOrCreateChainKey C s (wm_rkey m) rnd = Ok (c, s1) ->
  getOrCreateMessageKeys C s1 (wm_rkey m) c (wm_counter m) = (Ok mk, s2) ->
  pos_key C s (wm_rkey m) (wm_counter m) = Some mk.
Proof.
  intros Hn OK G1 G2.
  destruct (gocck_find _ _ _ _ _ G1) as (rc & F & Hc).
  destruct (gocmk_inv _ _ _ _ _ _ _ F Hc G2) as [(e' & E1 & E2)|(mk' & f & E1 & E2 & Hp & H)]; [discriminate|].
  injection E1 as <-. unfold pos_key.
  apply gocck_inv in G1. destruct G1 as [(rc' & F1 & Hc1 & ->)|(sc & old & F1 & Hs & _ & _ & Ec & R & _)].
  - rewrite F1, Hc1. rewrite F in F1. injection F1 as <-.
    destruct H as [(H1 & H2 & _)|(H1 & _ & H2 & _)].
    + destruct (Z.gtb_spec (ck_index c) (wm_counter m)); [exact H2|lia].
    + destruct (Z.gtb_spec (ck_index c) (wm_counter m)); [lia|]. now rewrite H2.
  - rewrite F1, Hs. rewrite <- Ec.
    assert (I0 : ck_index c = 0).
    { rewrite Ec. destruct (createChain C (s_root s) (wm_rkey m) (ch_rpriv sc)) as [r' c'] eqn:E.
      apply (createChain_ok C OK) in E. cbn [snd]. tauto. }
    destruct H as [(H1 & _)|(H1 & _ & H2 & _)]; [lia|]. rewrite H2, I0, Z.sub_0_r. reflexivity.
Qed.
End F.
