(* The session states of every client are explained by the terms of Active.v, whatever bundles and
   messages the client is given. *)
From Coq Require Import ZArith List Lia Bool.
From Verif Require Import Bytes Res Wire Crypto Cbc Messages MessagesProofs Session SessionProofs Builder
  Conversation ConversationProofs History Active.
Import ListNotations.
Open Scope Z_scope.

Section L.
Variable C : crypto.
Hypothesis OK : crypto_ok C.
Variable priv : bytes -> option bytes.
Hypothesis priv_ok : forall k x, priv k = Some x -> basepub C x = k.
Notation ev := (aeval C priv).
(* x is a private key of some client *)
Definition mine (x : bytes) : Prop := priv (basepub C x) = Some x.

Lemma ev_adh x k : mine x -> ev (adh (basepub C x) k) = dh C x k.
Proof.
  unfold mine. intros H. unfold adh. destruct (bytes_leb (basepub C x) k); cbn [aeval]; [now rewrite H|].
  destruct (priv k) as [y|] eqn:E.
  - rewrite (dh_comm C OK). now rewrite (priv_ok _ _ E).
  - unfold vpriv. now rewrite H.
Qed.
Lemma ev_adh' x k : mine x -> ev (adh k (basepub C x)) = dh C x k.
Proof. intros H. rewrite adh_comm. now apply ev_adh. Qed.

(* chain key and message keys of a place *)
Definition ck_at (a : agreement) (p : list bytes) (i : nat) : ckey :=
  mkCk (Z.of_nat i mod 2 ^ 32) (ev (a_ck a p i)).
Definition mk_at (a : agreement) (p : list bytes) (i : nat) : mkey :=
  mkMk (Z.of_nat i mod 2 ^ 32) (ev (a_mk a p i 0 32)) (ev (a_mk a p i 32 32)) (ev (a_mk a p i 64 16)).
Lemma next_at a p i : getNextChainKey C (ck_at a p i) = ck_at a p (S i).
Proof.
  unfold getNextChainKey, ck_at. cbn [ck_index ck_key a_ck aeval]. f_equal.
  rewrite Zplus_mod_idemp_l. f_equal. lia.
Qed.
Lemma keys_at a p i : getMessageKeys C (ck_at a p i) = mk_at a p i.
Proof.
  unfold getMessageKeys, mk_at, ck_at. cbv zeta. cbn [ck_index ck_key]. unfold a_mk. cbn [aeval]. f_equal.
  rewrite firstn_all2; [reflexivity|]. rewrite skipn_length, (hkdf_length C OK). lia.
Qed.
Lemma ckn_at a p i n : ckn C (ck_at a p i) n = ck_at a p (i + n).
Proof.
  induction n; [now rewrite Nat.add_0_r|]. rewrite ckn_S, IHn, next_at. f_equal. lia.
Qed.
Lemma load_at a p i c : load_ck (Some (ck_at a p i)) = Ok c -> c = ck_at a p i.
Proof.
  unfold load_ck. destruct (key32 (ck_key (ck_at a p i))) eqn:E; cbn [bind]; try discriminate.
  apply key32_inv in E. destruct E as [-> _]. intros H. injection H as <-. reflexivity.
Qed.
Lemma createChain_at a q k x their : mine x ->
  dh C x their = ev (adh (cur a q) k) ->
  createChain C (ev (a_root a q)) their x = (ev (a_root a (k :: q)), ck_at a (k :: q) 0).
Proof.
  intros Hx E. unfold createChain, ck_at. cbv zeta. rewrite E. cbn [a_root a_ck aeval].
  change (Z.of_nat 0 mod 2 ^ 32) with 0. f_equal. f_equal. symmetry. apply firstn_all2. rewrite skipn_length, (hkdf_length C OK). lia.
Qed.
Lemma derived_at a : calculateDerivedKeys C (ev (a_km a)) = (ev (a_root a []), ck_at a [] 0).
Proof.
  unfold calculateDerivedKeys, ck_at. cbv zeta. cbn [a_root a_ck aeval].
  change (Z.of_nat 0 mod 2 ^ 32) with 0. f_equal. f_equal. symmetry. apply firstn_all2. rewrite skipn_length, (hkdf_length C OK). lia.
Qed.

(* ------------------------------------------------------------------------------------------ *)
(* the base keys drawn and the signed prekeys of clients *)
Variable bases signeds : bytes -> Prop.
(* the part that a client with identity key me has in an agreement with somebody with key rem *)
Definition role (me rem : bytes) (a : agreement) : Prop :=
  (ag_init a = me /\ ag_resp a = rem /\ bases (ag_base a)) \/
  (ag_resp a = me /\ ag_init a = rem /\ signeds (ag_spk a)).
Definition suffix (q p : list bytes) : Prop := exists l, p = l ++ q.
Definition chain_at (a : agreement) (p : list bytes) (c : chain) : Prop :=
  exists q i, suffix q p /\ ch_ck c = Some (ck_at a q i) /\
    Forall (fun mk => exists j, mk = mk_at a q j) (ch_mks c).
Record state_at (me : bytes) (a : agreement) (p : list bytes) (s : sstate) : Prop := {
  sa_version : s_version s = 3;
  sa_local : s_local s = me;
  sa_role : role me (s_remote s) a;
  sa_root : s_root s = ev (a_root a p);
  sa_prev : 0 <= s_prev s < 2 ^ 32;
  sa_sender : exists x i mks, mine x /\ basepub C x = cur a p /\
    s_sender s = Some (mkChain (cur a p) x (Some (ck_at a p i)) mks);
  sa_recv : Forall (chain_at a p) (s_recv s) }.
(* a state that was never filled, or one that is explained *)
Definition explained (me : bytes) (s : sstate) : Prop :=
  (s_sender s = None /\ s_recv s = []) \/ exists a p, state_at me a p s.

Lemma suffix_refl p : suffix p p.
Proof. now exists []. Qed.
Lemma suffix_cons k q p : suffix q p -> suffix q (k :: p).
Proof. intros [l ->]. now exists (k :: l). Qed.
Lemma chain_at_cons a k p c : chain_at a p c -> chain_at a (k :: p) c.
Proof. intros (q & i & H1 & H2). exists q, i. split; [now apply suffix_cons|exact H2]. Qed.
Lemma addReceiver_at a p l rk q i : Forall (chain_at a p) l -> suffix q p ->
  Forall (chain_at a p) (addReceiverChain l rk (ck_at a q i)).
Proof.
  intros HF HS. assert (HL : Forall (chain_at a p) (l ++ [mkChain rk [] (Some (ck_at a q i)) []])).
  { apply Forall_app. split; [exact HF|]. constructor; [|constructor]. exists q, i. cbn [ch_ck ch_mks]. auto. }
  unfold addReceiverChain. cbv zeta. destruct (Nat.ltb _ _); [|exact HL].
  destruct HL; [constructor|assumption].
Qed.
Lemma find_chain_in rk l c : find_chain rk l = Some c -> In c l.
Proof.
  induction l as [|d l IH]; cbn [find_chain]; [discriminate|]. destruct (beq rk (ch_rpub d)).
  - intros H. injection H as <-. now left.
  - intros H. right. auto.
Qed.
Lemma upd_chain_at (P : chain -> Prop) rk f l : Forall P l -> (forall c, find_chain rk l = Some c -> P (f c)) ->
  Forall P (upd_chain rk f l).
Proof.
  intros H. induction H as [|c l Hc HF IH]; intros HP; [constructor|]. cbn [upd_chain find_chain] in *.
  destruct (beq rk (ch_rpub c)); constructor; auto.
Qed.
Lemma take_mk_in i l k r : take_mk i l = Some (k, r) -> In k l /\ (forall x, In x r -> In x l).
Proof.
  revert k r. induction l as [|d l IH]; intros k r; cbn [take_mk]; [discriminate|].
  destruct (i =? mk_index d).
  - intros H. injection H as <- <-. split; [now left|]. intros x Hx. now right.
  - destruct (take_mk i l) as [[m r']|]; [|discriminate]. intros H. injection H as <- <-.
    destruct (IH m r' eq_refl) as [H1 H2]. split; [now right|]. intros x [->|Hx]; [now left|right; auto].
Qed.

(* the chain key for a message *)
Lemma gocck_at me a p s rk rnd c s' : state_at me a p s -> mine (clamp rnd) ->
  getOrCreateChainKey C s rk rnd = Ok (c, s') ->
  exists p', state_at me a p' s' /\ s_remote s' = s_remote s /\ suffix p p' /\
    exists rc q i, find_chain rk (s_recv s') = Some rc /\ suffix q p' /\ c = ck_at a q i /\
      ch_ck rc = Some (ck_at a q i) /\ Forall (fun mk => exists j, mk = mk_at a q j) (ch_mks rc).
Proof.
  intros HS Hn H. unfold getOrCreateChainKey in H. destruct (find_chain rk (s_recv s)) as [rc|] eqn:Ef.
  - pose proof (find_chain_in _ _ _ Ef) as Hin.
    pose proof (proj1 (Forall_forall _ _) (sa_recv _ _ _ _ HS) _ Hin) as (q & i & H1 & H2 & H3).
    rewrite H2 in H. destruct (load_ck (Some (ck_at a q i))) as [c0| |] eqn:El; cbn [bind] in H; try discriminate H.
    injection H as <- <-. apply load_at in El. subst c0. exists p. split; [exact HS|]. split; [reflexivity|].
    split; [apply suffix_refl|]. exists rc, q, i. auto 6.
  - destruct (sa_sender _ _ _ _ HS) as (x & i & mks & Hx & Hp & Hsc). rewrite Hsc in H.
    destruct (key32 (s_root s)) as [root| |] eqn:Er; cbn [bind] in H; try discriminate H.
    apply key32_inv in Er. destruct Er as [-> _]. rewrite (sa_root _ _ _ _ HS) in H. cbn [ch_rpriv ch_rpub ch_ck] in H.
    destruct (key32 x) as [x'| |] eqn:Ex; cbn [bind] in H; try discriminate H.
    apply key32_inv in Ex. destruct Ex as [-> _].
    destruct (key32 (cur a p)) as [pk| |] eqn:Ep; cbn [bind] in H; try discriminate H. clear pk Ep.
    rewrite (createChain_at a p rk x rk Hx) in H by (rewrite <- Hp; symmetry; now apply ev_adh).
    rewrite (createChain_at a (rk :: p) (basepub C (clamp rnd)) (clamp rnd) rk Hn) in H
      by (cbn [cur]; symmetry; now apply ev_adh').
    destruct (load_ck (Some (ck_at a p i))) as [c0| |] eqn:El; cbn [bind] in H; try discriminate H.
    cbv zeta in H. injection H as <- <-.
    exists (basepub C (clamp rnd) :: rk :: p).
    assert (HF : Forall (chain_at a (basepub C (clamp rnd) :: rk :: p)) (addReceiverChain (s_recv s) rk (ck_at a (rk :: p) 0))).
    { apply addReceiver_at; [|apply suffix_cons, suffix_refl].
      eapply Forall_impl; [|exact (sa_recv _ _ _ _ HS)]. intros c Hc. now apply chain_at_cons, chain_at_cons. }
    split; [constructor|].
    + cbn. apply (sa_version _ _ _ _ HS).
    + cbn. apply (sa_local _ _ _ _ HS).
    + cbn. apply (sa_role _ _ _ _ HS).
    + reflexivity.
    + cbn [with_sender with_prev with_recv with_root s_prev]. apply load_at in El. subst c0. cbn [ck_index ck_at].
      pose proof (Z.mod_pos_bound (Z.of_nat i) (2 ^ 32) ltac:(lia)). destruct (Z.gtb_spec (Z.of_nat i mod 2 ^ 32) 0); lia.
    + exists (clamp rnd), 0%nat, []. split; [exact Hn|]. split; reflexivity.
    + exact HF.
    + split; [reflexivity|]. split; [now apply suffix_cons, suffix_cons, suffix_refl|].
      exists (mkChain rk [] (Some (ck_at a (rk :: p) 0)) []), (rk :: p), 0%nat.
      split; [|split; [apply suffix_cons, suffix_refl|cbn [ch_ck ch_mks]; auto]].
      cbn [with_sender with_prev with_recv with_root s_recv]. unfold addReceiverChain. cbv zeta.
      assert (E : forall l, find_chain rk l = None ->
        find_chain rk (l ++ [mkChain rk [] (Some (ck_at a (rk :: p) 0)) []]) = Some (mkChain rk [] (Some (ck_at a (rk :: p) 0)) [])).
      { induction l as [|d l IH]; cbn [app find_chain ch_rpub]; [now rewrite beq_refl|].
        destruct (beq rk (ch_rpub d)); [discriminate|exact IH]. }
      destruct (Nat.ltb _ _) eqn:EL; [|now apply E].
      destruct (s_recv s) as [|d l]; [discriminate EL|]. cbn [app tl]. apply E.
      cbn [find_chain] in Ef. destruct (beq rk (ch_rpub d)); [discriminate Ef|exact Ef].
Qed.

(* the keys of a message *)
Lemma gocmk_at me a p s rk rc q i counter r s' : state_at me a p s ->
  find_chain rk (s_recv s) = Some rc -> suffix q p -> ch_ck rc = Some (ck_at a q i) ->
  Forall (fun mk => exists j, mk = mk_at a q j) (ch_mks rc) ->
  getOrCreateMessageKeys C s rk (ck_at a q i) counter = (r, s') ->
  state_at me a p s' /\ s_remote s' = s_remote s /\
  (forall mk, r = Ok mk -> exists j, mk = mk_at a q j).
Proof.
  intros HS Ef HQ Hck Hmks H. unfold getOrCreateMessageKeys in H. rewrite Ef in H.
  assert (UPD : forall f, (forall d, ch_ck d = ch_ck rc -> ch_mks d = ch_mks rc -> chain_at a p (f d)) ->
    state_at me a p (with_recv s (upd_chain rk f (s_recv s)))).
  { intros f Hf. constructor; cbn [with_recv s_version s_local s_remote s_root s_prev s_sender s_recv]; try apply HS.
    apply upd_chain_at; [apply HS|]. intros d Hd. apply Hf; congruence. }
  destruct (_ >? _).
  - destruct (take_mk counter (ch_mks rc)) as [[k rest]|] eqn:Et.
    + injection H as <- <-. apply take_mk_in in Et. destruct Et as [E1 E2].
      split; [|split; [reflexivity|]].
      * apply UPD. intros d Hd1 Hd2. exists q, i. split; [exact HQ|]. split; [cbn; congruence|].
        cbn [ch_mks]. rewrite Forall_forall in Hmks |- *. auto.
      * intros mk E. injection E as <-. rewrite Forall_forall in Hmks. auto.
    + injection H as <- <-. split; [exact HS|]. split; [reflexivity|]. intros mk E. discriminate E.
  - destruct (too_far _ _ _); [injection H as <- <-; split; [exact HS|split; [reflexivity|intros mk E; discriminate E]]|].
    rewrite skip_keys_spec, ckn_at in H. injection H as <- <-.
    split; [|split; [reflexivity|]].
    + apply UPD. intros d Hd1 Hd2. exists q, (S (i + Z.to_nat (counter - ck_index (ck_at a q i)))).
      split; [exact HQ|]. split; [cbn [ch_ck]; now rewrite next_at|]. cbn [ch_mks].
      apply Forall_app. split; [exact Hmks|]. apply Forall_forall. intros mk Hmk. apply in_map_iff in Hmk.
      destruct Hmk as (j & <- & _). exists (i + j)%nat. now rewrite ckn_at, keys_at.
    + intros mk E. injection E as <-. eexists. apply keys_at.
Qed.

(* what a client accepts *)
Definition accepts (me : bytes) (m : wmsg) (pt : bytes) (s' : sstate) : Prop :=
  exists a p q i, state_at me a p s' /\ suffix q p /\ length (s_remote s') = 32%nat /\ length me = 32%nat /\
    verifyMAC C m (s_remote s') me (ev (a_mk a q i 32 32)) = true /\
    Decrypt C (ev (a_mk a q i 0 32)) (ev (a_mk a q i 64 16) ++ wm_ct m) = Ok pt.
Lemma ss_decrypt_at me s m rnd r s' : explained me s -> mine (clamp rnd) -> ss_decrypt C s m rnd = (r, s') ->
  explained me s' /\ forall pt, r = Ok pt -> accepts me m pt s'.
Proof.
  intros [(HN & HR)|(a & p & HS)] Hn H; unfold ss_decrypt in H.
  - rewrite HN in H. injection H as <- <-. split; [left; auto|]. intros pt E. discriminate E.
  - destruct (s_sender s); [|injection H as <- <-; split; [right; eauto|intros pt E; discriminate E]].
    destruct (negb _); [injection H as <- <-; split; [right; eauto|intros pt E; discriminate E]|].
    destruct (getOrCreateChainKey C s (wm_rkey m) rnd) as [[c0 s1]| |] eqn:E1;
      [|injection H as <- <-; split; [right; eauto|intros pt E; discriminate E]..].
    apply (gocck_at me a p) in E1; auto. destruct E1 as (p' & HS1 & HR1 & _ & rc & q & i & F1 & F2 & -> & F3 & F4).
    destruct (getOrCreateMessageKeys C s1 (wm_rkey m) (ck_at a q i) (wm_counter m)) as [r2 s2] eqn:E2.
    apply (gocmk_at me a p' s1 (wm_rkey m) rc) in E2; auto. destruct E2 as (HS2 & HR2 & HK).
    destruct r2 as [mk| |]; [|injection H as <- <-; split; [right; eauto|intros pt E; discriminate E]..].
    destruct (HK mk eq_refl) as [j ->].
    destruct (key32 (s_remote s2)) as [rem| |] eqn:Erem, (key32 (s_local s2)) as [loc| |] eqn:Eloc;
      try (injection H as <- <-; split; [right; eauto|intros pt E; discriminate E]).
    apply key32_inv in Erem, Eloc. destruct Erem as [-> Lr], Eloc as [-> Ll].
    rewrite (sa_local _ _ _ _ HS2) in *. cbn [mk_mac mk_cipher mk_iv mk_at] in H.
    destruct (verifyMAC _ _ _ _ _) eqn:EV; cbn [negb] in H;
      [|injection H as <- <-; split; [right; eauto|intros pt E; discriminate E]].
    destruct (Decrypt _ _ _) as [pt0| |] eqn:ED; injection H as <- <-;
      (split; [right|intros pt E; try discriminate E]).
    2, 4: eauto.
    1, 2: assert (HS3 : state_at me a p' (with_pending s2 None)) by (constructor; apply HS2).
    + eauto.
    + injection E as <-. exists a, p', q, j. auto 10.
    + eauto.
Qed.

(* records *)
Definition rec_ok (me : bytes) (r : srecord) : Prop :=
  explained me (r_cur r) /\ Forall (explained me) (r_prevs r).
Lemma empty_explained me : explained me empty_ss.
Proof. left. split; reflexivity. Qed.
Lemma promote_ok me r s : rec_ok me r -> explained me s -> rec_ok me (promoteState r s).
Proof.
  intros [H1 H2] HS. split; [exact HS|]. unfold promoteState. cbv zeta. cbn [r_prevs].
  assert (HF : Forall (explained me) (r_cur r :: r_prevs r)) by now constructor.
  destruct (Nat.ltb _ _); [|exact HF].
  rewrite Forall_forall in HF |- *. intros x Hx. apply HF. revert Hx. generalize (r_cur r :: r_prevs r) as l.
  induction l as [|y l IH]; [intros []|]. cbn [removelast]. destruct l; [intros []|].
  intros [->|Hx]; [now left|right]. now apply IH.
Qed.
Lemma try_prevs_at me m rnd : (forall i, mine (clamp (rnd i))) -> forall l i r l', Forall (explained me) l ->
  try_prevs C l m rnd i = (r, l') ->
  Forall (explained me) l' /\ forall pt s, r = Ok (Some (pt, s)) -> explained me s /\ accepts me m pt s.
Proof.
  intros Hn. induction l as [|s l IH]; intros i r l' HF H; cbn [try_prevs] in H.
  - injection H as <- <-. split; [constructor|]. intros pt s E. discriminate E.
  - inversion HF as [|? ? HS HF']; subst. destruct (ss_decrypt C s m (rnd i)) as [r0 s0] eqn:E0.
    apply (ss_decrypt_at me) in E0; auto. destruct E0 as [HS0 HA]. destruct r0.
    + injection H as <- <-. split; [now constructor|]. intros pt s1 E. injection E as <- <-. auto.
    + destruct (try_prevs C l m rnd (S i)) as [r1 l1] eqn:E1. injection H as <- <-.
      destruct (IH _ _ _ HF' E1) as [H1 H2]. split; [now constructor|exact H2].
    + injection H as <- <-. split; [now constructor|]. intros pt s1 E. discriminate E.
Qed.
Lemma sc_decrypt_at me r m rnd o r' : (forall i, mine (clamp (rnd i))) -> rec_ok me r ->
  sc_decrypt C r m rnd = (o, r') ->
  rec_ok me r' /\ forall pt, o = Ok pt -> accepts me m pt (r_cur r').
Proof.
  intros Hn [HC HP] H. unfold sc_decrypt in H. destruct (ss_decrypt C (r_cur r) m (rnd 0%nat)) as [o0 s0] eqn:E0.
  apply (ss_decrypt_at me) in E0; auto. destruct E0 as [HS0 HA]. destruct o0.
  - injection H as <- <-. split; [now split|]. intros pt E. injection E as <-. auto.
  - destruct (try_prevs C (r_prevs r) m rnd 1) as [o1 l1] eqn:E1.
    destruct (try_prevs_at me m rnd Hn _ _ _ _ HP E1) as [HF H1].
    destruct o1 as [[[pt s]|]| |]; injection H as <- <-; (split; [|intros pt' E; try discriminate E]).
    + apply promote_ok; [now split|]. now apply (H1 pt s).
    + injection E as <-. cbn [promoteState r_cur]. now apply H1.
    + now split.
    + now split.
    + now split.
  - injection H as <- <-. split; [now split|]. intros pt E. discriminate E.
Qed.

(* ------------------------------------------------------------------------------------------ *)
(* Stores of a client *)
Record node_ok (w : world) : Prop := {
  no_ident : mine (fst (w_ident w)) /\ basepub C (fst (w_ident w)) = snd (w_ident w);
  no_spk : forall id kp, w_spk w id = Some kp -> mine (fst kp) /\ basepub C (fst kp) = snd kp /\ signeds (snd kp);
  no_pre : forall id kp, w_pre w id = Some kp -> mine (fst kp) /\ basepub C (fst kp) = snd kp;
  no_sess : forall rid dev c p, w_sess w rid dev = Some (c, p) -> rec_ok (snd (w_ident w)) (mkSr c p false) }.
Definition eff_ok (me : bytes) (e : eff) : Prop :=
  match e with
  | EStoreSession _ _ c p => rec_ok me (mkSr c p false)
  | _ => True
  end.
Lemma apply_ok w e : node_ok w -> eff_ok (snd (w_ident w)) e -> node_ok (apply_eff w e) /\ w_ident (apply_eff w e) = w_ident w.
Proof.
  intros HW HE. destruct e as [rid dev c p|id|rid k]; cbn [apply_eff]; (split; [|reflexivity]); constructor; try apply HW.
  - cbn [set_sess w_sess w_ident]. intros r d c' p' H. destruct (beq r rid && (d =? dev)); [|eapply no_sess; eauto].
    injection H as <- <-. exact HE.
  - cbn [set_pre w_pre]. intros i kp H. destruct (i =? id); [discriminate H|]. eapply no_pre; eauto.
Qed.
Lemma apply_all_ok l : forall w, node_ok w -> Forall (eff_ok (snd (w_ident w))) l ->
  node_ok (apply_effs w l) /\ w_ident (apply_effs w l) = w_ident w.
Proof.
  induction l as [|e l IH]; intros w HW HL; [now split|]. inversion HL; subst.
  destruct (apply_ok w e HW) as [H3 H4]; auto. destruct (IH (apply_eff w e) H3) as [H5 H6]; [now rewrite H4|].
  split; [exact H5|]. change (apply_effs w (e :: l)) with (apply_effs (apply_eff w e) l). congruence.
Qed.
Lemma load_ok w rid dev : node_ok w -> rec_ok (snd (w_ident w)) (LoadSession w rid dev).
Proof.
  intros HW. unfold LoadSession. destruct (w_sess w rid dev) as [[c p]|] eqn:E.
  - eapply no_sess; eauto.
  - split; [apply empty_explained|constructor].
Qed.
Lemma archived_ok me r : rec_ok me r -> (r_fresh r = true -> r_cur r = empty_ss) ->
  let r1 := if r_fresh r then r else archiveCurrentState r in
  rec_ok me r1 /\ r_cur r1 = empty_ss.
Proof.
  intros HR HF r1. unfold r1. destruct (r_fresh r); [auto|]. split; [|reflexivity].
  apply promote_ok; [exact HR|apply empty_explained].
Qed.
Lemma load_fresh w rid dev : r_fresh (LoadSession w rid dev) = true -> r_cur (LoadSession w rid dev) = empty_ss.
Proof. unfold LoadSession. destruct (w_sess w rid dev) as [[c p]|]; [discriminate|reflexivity]. Qed.

(* a session begun by the client *)
Lemma sender_at w rid dev b rbase rratchet o l : node_ok w -> mine (clamp rbase) -> mine (clamp rratchet) ->
  bases (basepub C (clamp rbase)) ->
  BuildSenderSession C w rid dev b rbase rratchet = (o, l) -> Forall (eff_ok (snd (w_ident w))) l.
Proof.
  intros HW Hb Hr HB H. unfold BuildSenderSession in H.
  destruct (negb _); [injection H as <- <-; constructor|].
  destruct (b_spk b) as [spk|]; [|injection H as <- <-; constructor].
  destruct (negb _); [injection H as <- <-; constructor|]. cbv zeta in H. injection H as <- <-.
  destruct (archived_ok (snd (w_ident w)) (LoadSession w rid dev) (load_ok w rid dev HW) (load_fresh w rid dev)) as [[_ HP] HE].
  constructor; [|constructor; [exact Logic.I|constructor]]. cbn [eff_ok]. split; [|exact HP]. cbn [r_cur].
  rewrite HE. clear HP HE. right. destruct (no_ident _ HW) as [Hi Hp].
  set (a := mkAg (snd (w_ident w)) (basepub C (clamp rbase)) (b_ident b) spk (b_pk b)).
  exists a, [basepub C (clamp rratchet)].
  assert (EK : diversifier ++ dh C (fst (w_ident w)) spk ++ dh C (clamp rbase) (b_ident b) ++ dh C (clamp rbase) spk
     ++ match b_pk b with Some k => dh C (clamp rbase) k | None => [] end = ev (a_km a)).
  { unfold a_km, a. cbn [ag_spk ag_init ag_resp ag_base ag_otk aeval]. rewrite <- Hp.
    rewrite !ev_adh' by assumption. repeat f_equal. destruct (b_pk b); [now rewrite ev_adh'|reflexivity]. }
  unfold initializeSenderSession. cbv zeta. rewrite EK, derived_at.
  rewrite (createChain_at a [] (basepub C (clamp rratchet)) (clamp rratchet) spk Hr)
    by (cbn [cur ag_spk a]; symmetry; now apply ev_adh').
  constructor.
  - reflexivity.
  - reflexivity.
  - left. repeat split. exact HB.
  - reflexivity.
  - cbn. lia.
  - exists (clamp rratchet), 0%nat, []. split; [exact Hr|]. split; reflexivity.
  - cbn. constructor; [|constructor]. exists [basepub C (clamp rratchet)], 0%nat.
    split; [apply suffix_refl|]. split; [reflexivity|constructor].
Qed.

(* a session begun by a message *)
Lemma receiver_at w rid dev m o l : node_ok w ->
  BuildReceiverSession C w rid (LoadSession w rid dev) m = (o, l) ->
  Forall (eff_ok (snd (w_ident w))) l /\
  forall v, o = Ok v -> rec_ok (snd (w_ident w)) (snd v).
Proof.
  intros HW H. unfold BuildReceiverSession in H.
  destruct (negb _); [injection H as <- <-; split; [constructor|intros v E; discriminate E]|].
  destruct (negb _); [injection H as <- <-; split; [constructor|intros v E; discriminate E]|].
  destruct (hasSessionState _ _ _).
  - injection H as <- <-. split; [constructor|]. intros v E. injection E as <-. cbn [snd]. now apply load_ok.
  - cbv zeta in H. destruct (w_spk w (pk_spkid m)) as [spk|] eqn:Es; cbn [of_option bind] in H;
      [|injection H as <- <-; split; [constructor|intros v E; discriminate E]].
    unfold load_kp in H at 1.
    destruct (key32 (fst spk)) as [x| |] eqn:E1; cbn [bind] in H;
      try (injection H as <- <-; split; [constructor|intros v E; discriminate E]).
    destruct (key32 (snd spk)) as [y| |] eqn:E2; cbn [bind] in H;
      try (injection H as <- <-; split; [constructor|intros v E; discriminate E]).
    apply key32_inv in E1, E2. destruct E1 as [-> _], E2 as [-> _]. cbn [fst snd] in H.
    destruct (no_spk _ HW _ _ Es) as (Hm & Hp & Hg).
    assert (HO : exists otk : res (option bytes), (if pk_pkid m =? 0 then Ok None
        else let* kp := of_option EPreKeyNotFound (w_pre w (pk_pkid m)) in
             let* kp := load_kp kp in Ok (Some (fst kp))) = otk /\
        forall x, otk = Ok (Some x) -> mine x).
    { eexists. split; [reflexivity|]. intros x. destruct (pk_pkid m =? 0); [intros E; discriminate E|].
      destruct (w_pre w (pk_pkid m)) as [kp|] eqn:Ep; cbn [of_option bind]; [|intros E; discriminate E].
      unfold load_kp. destruct (key32 (fst kp)) eqn:K1; cbn [bind]; try (intros E; discriminate E).
      destruct (key32 (snd kp)) eqn:K2; cbn [bind]; try (intros E; discriminate E). cbn [fst].
      apply key32_inv in K1. destruct K1 as [-> _]. intros E. injection E as <-. now apply (no_pre _ HW _ _ Ep). }
    destruct HO as (otk & EO & HO). rewrite EO in H. clear EO.
    destruct otk as [otk| |]; cbn [bind] in H;
      [|injection H as <- <-; split; [constructor|intros v E; discriminate E]..].
    injection H as <- <-. split; [constructor; [exact Logic.I|constructor]|]. intros v E. injection E as <-. cbn [snd].
    destruct (archived_ok (snd (w_ident w)) (LoadSession w rid dev) (load_ok w rid dev HW) (load_fresh w rid dev)) as [[_ HP] HE].
    split; [|exact HP]. cbn [r_cur]. rewrite HE. clear HP HE. right. destruct (no_ident _ HW) as [Hi Hpi].
    set (a := mkAg (pk_ident m) (pk_base m) (snd (w_ident w)) (snd spk)
                (match otk with Some x => Some (basepub C x) | None => None end)).
    exists a, [].
    assert (EK : diversifier ++ dh C (fst spk) (pk_ident m) ++ dh C (fst (w_ident w)) (pk_base m) ++ dh C (fst spk) (pk_base m)
       ++ match otk with Some k => dh C k (pk_base m) | None => [] end = ev (a_km a)).
    { unfold a_km, a. cbn [ag_spk ag_init ag_resp ag_base ag_otk aeval]. rewrite <- Hp, <- Hpi.
      rewrite !ev_adh by assumption. repeat f_equal. destruct otk; [rewrite ev_adh; auto|reflexivity]. }
    unfold initializeReceiverSession. cbv zeta. rewrite EK, derived_at.
    constructor.
    + reflexivity.
    + reflexivity.
    + right. repeat split. exact Hg.
    + reflexivity.
    + cbn. lia.
    + exists (fst spk), 0%nat, []. split; [exact Hm|]. split; [exact Hp|reflexivity].
    + constructor.
Qed.

(* reception *)
(* the WhisperMessage in a message: messages.go 41-44 and 160-171 *)
Definition whisper_of (ty : mtype) (b : bytes) : option bytes :=
  match ty with
  | CIPHERTEXT => Some b
  | PREKEY_BUNDLE => match parse (tl b) with Some fs => get_len 4 fs | None => None end
  end.
Lemma LoadWhisper_ser b m : LoadWhisperMessage b = Ok m -> wm_ser m = b /\ wm_version m = 3 /\ (9 <= length b)%nat.
Proof.
  unfold LoadWhisperMessage. destruct (Z.ltb_spec (zlen b - 8) 1) as [|Hl]; [discriminate|]. cbv zeta.
  destruct (negb _) eqn:EV; [discriminate|]. destruct (parse _) as [fs|]; [|discriminate].
  destruct (get_len 4 fs); [|discriminate]. destruct (get_len 1 fs) as [rk|]; [|discriminate].
  destruct (key_unser rk); cbn [bind]; try discriminate. intros H. injection H as <-. cbn [wm_ser wm_version].
  split; [reflexivity|]. apply negb_false_iff, Z.eqb_eq in EV. split; [exact EV|]. unfold zlen in Hl. lia.
Qed.
Lemma LoadPre_ser b m : LoadPreKeyWhisperMessage b = Ok m ->
  exists wh, whisper_of PREKEY_BUNDLE b = Some wh /\ LoadWhisperMessage wh = Ok (pk_msg m).
Proof.
  unfold LoadPreKeyWhisperMessage. destruct b as [|b0 b]; [discriminate|]. cbv zeta.
  destruct (negb _); [discriminate|]. cbn [whisper_of tl]. destruct (parse b) as [fs|]; [|discriminate].
  destruct (get_len 2 fs) as [base|]; [|discriminate]. destruct (get_len 3 fs) as [ident|]; [|discriminate].
  destruct (get_len 4 fs) as [msg|]; [|discriminate]. destruct (_ =? 0); [discriminate|].
  destruct (LoadWhisperMessage msg) as [wm| |] eqn:E; cbn [bind]; try discriminate.
  destruct (key_unser base); cbn [bind]; try discriminate. destruct (key_unser ident); cbn [bind]; try discriminate.
  intros H. injection H as <-. exists msg. auto.
Qed.

Lemma receive_at w rid dev ty b rnd o l : node_ok w -> (forall i, mine (clamp (rnd i))) ->
  receive C w rid dev ty b rnd = (o, l) ->
  Forall (eff_ok (snd (w_ident w))) l /\
  forall pt, o = Ok pt -> exists wh m s ps,
    whisper_of ty b = Some wh /\ LoadWhisperMessage wh = Ok m /\ accepts (snd (w_ident w)) m pt s /\
    w_sess (apply_effs w l) rid dev = Some (s, ps).
Proof.
  intros HW Hn H.
  assert (LAST : forall x s ps, w_sess (apply_effs w (x ++ [EStoreSession rid dev s ps])) rid dev = Some (s, ps)).
  { intros x s ps. unfold apply_effs. rewrite fold_left_app. cbn [fold_left apply_eff set_sess w_sess].
    now rewrite beq_refl, Z.eqb_refl. }
  destruct ty; cbn [receive] in H.
  - destruct (LoadWhisperMessage b) as [m| |] eqn:EL;
      [|injection H as <- <-; split; [constructor|intros pt E; discriminate E]..].
    unfold SessionDecryptWhisperMessage in H. destruct (sc_decrypt C (LoadSession w rid dev) m rnd) as [o1 r1] eqn:ES.
    apply (sc_decrypt_at (snd (w_ident w))) in ES; auto using load_ok. destruct ES as [HR HA].
    destruct o1; injection H as <- <-; (split; [|intros pt0 E; try discriminate E]); try constructor.
    + exact HR.
    + constructor.
    + injection E as <-. exists b, m, (r_cur r1), (r_prevs r1). split; [reflexivity|]. split; [exact EL|].
      split; [now apply HA|]. apply (LAST []).
  - destruct (LoadPreKeyWhisperMessage b) as [m| |] eqn:EL;
      [|injection H as <- <-; split; [constructor|intros pt E; discriminate E]..].
    unfold SessionDecryptPreKeyWhisperMessage in H.
    destruct (BuildReceiverSession C w rid (LoadSession w rid dev) m) as [o0 l0] eqn:EB.
    apply receiver_at in EB; [|exact HW]. destruct EB as [HL0 HR0].
    destruct o0 as [[pkid r1]| |]; [|injection H as <- <-; split; [exact HL0|intros pt E; discriminate E]..].
    specialize (HR0 _ eq_refl). cbn [snd] in HR0.
    destruct (sc_decrypt C r1 (pk_msg m) rnd) as [o1 r'] eqn:ES.
    apply (sc_decrypt_at (snd (w_ident w))) in ES; auto. destruct ES as [HR HA].
    destruct o1; injection H as <- <-; (split; [|intros pt0 E; try discriminate E]); try exact HL0.
    + apply Forall_app. split; [exact HL0|]. apply Forall_app. split.
      * destruct (pkid =? 16777215); constructor; [exact Logic.I|constructor].
      * constructor; [exact HR|constructor].
    + injection E as <-. destruct (LoadPre_ser _ _ EL) as (wh & E1 & E2).
      exists wh, (pk_msg m), (r_cur r'), (r_prevs r'). split; [exact E1|]. split; [exact E2|]. split; [now apply HA|].
      rewrite app_assoc. apply LAST.
Qed.

(* sending *)
(* a message is a WhisperMessage or one wrapped with prekey data: messages.go 186-214 *)
Definition carries (b wh : bytes) : Prop :=
  b = wh \/ exists v reg pkid spkid base ident, b = v :: encode (prekey_fields reg pkid spkid base ident wh).
(* e describes the message b that a client with stores w has made of the text pt for (rid, dev) *)
Definition describes (w : world) (rid : bytes) (dev : Z) (pt b : bytes) (e : emission) : Prop :=
  exists s ps, w_sess w rid dev = Some (s, ps) /\
  role (snd (w_ident w)) (s_remote s) (em_ag e) /\
  em_from e = snd (w_ident w) /\ em_to e = s_remote s /\ em_text e = pt /\
  length (em_from e) = 32%nat /\ length (em_to e) = 32%nat /\
  carries b (em_body e ++ ev (tag_of e)) /\
  exists m, LoadWhisperMessage (em_body e ++ ev (tag_of e)) = Ok m /\
    Encrypt C (ev (a_mk (em_ag e) (em_path e) (em_idx e) 0 32)) (ev (a_mk (em_ag e) (em_path e) (em_idx e) 64 16)) pt
    = Ok (wm_ct m).

Lemma encrypt_at w rid dev pt o l : node_ok w -> wfb pt -> zlen pt < 2 ^ 60 ->
  SessionEncryptMessage C w rid dev pt = (o, l) ->
  Forall (eff_ok (snd (w_ident w))) l /\ forall b ty, o = Ok (b, ty) -> exists e, describes w rid dev pt b e.
Proof.
  intros HW Hw Hz H. unfold SessionEncryptMessage in H. pose proof (load_ok w rid dev HW) as [HC HP].
  unfold LoadSession in *. destruct (w_sess w rid dev) as [[s ps]|] eqn:ES.
  2:{ cbn in H. injection H as <- <-. split; [constructor|]. intros b ty E. discriminate E. }
  cbn [r_cur r_prevs] in *. destruct (ss_encrypt C s pt) as [[[b ty] s']| |] eqn:EE;
    [|injection H as <- <-; split; [constructor|intros b0 ty0 E; discriminate E]..].
  injection H as <- <-. unfold ss_encrypt in EE. destruct HC as [(HN & _)|(a & p & HS)]; [rewrite HN in EE; discriminate EE|].
  destruct (sa_sender _ _ _ _ HS) as (x & i & mks & Hx & Hp & Hsc). rewrite Hsc in EE. cbn [ch_ck ch_rpub ch_rpriv ch_mks] in EE.
  destruct (load_ck (Some (ck_at a p i))) as [c| |] eqn:EL; cbn [bind] in EE; try discriminate EE.
  apply load_at in EL. subst c. rewrite keys_at in EE.
  destruct (key32 (cur a p)) as [rk| |] eqn:ER; cbn [bind] in EE; try discriminate EE.
  apply key32_inv in ER. destruct ER as [-> Lk].
  destruct (Encrypt C (mk_cipher (mk_at a p i)) (mk_iv (mk_at a p i)) pt) as [ct| |] eqn:EC; cbn [bind] in EE; try discriminate EE.
  destruct (key32 (s_local s)) as [loc| |] eqn:E1; cbn [bind] in EE; try discriminate EE.
  apply key32_inv in E1. destruct E1 as [-> L1].
  destruct (key32 (s_remote s)) as [rem| |] eqn:E2; cbn [bind] in EE; try discriminate EE.
  apply key32_inv in E2. destruct E2 as [-> L2].
  assert (EV : getSessionVersion s mod 256 = 3) by (unfold getSessionVersion; rewrite (sa_version _ _ _ _ HS); reflexivity).
  rewrite EV in EE. rewrite (sa_local _ _ _ _ HS) in *. set (me := snd (w_ident w)) in *.
  set (wm := newWhisperMessage C 3 (mk_mac (mk_at a p i)) (cur a p) (ck_index (ck_at a p i)) (s_prev s) ct me (s_remote s)) in *.
  set (s1 := with_sender s _) in *.
  assert (HS1 : state_at me a p s1).
  { constructor; try apply HS. exists x, (S i), mks. split; [exact Hx|]. split; [exact Hp|]. unfold s1.
    cbn [with_sender s_sender]. now rewrite next_at. }
  assert (HB : s' = s1 /\ carries b (wm_ser wm)).
  { destruct (s_pending s) as [pp|].
    - destruct (key_unser (pp_base pp)) as [base| |]; cbn [bind] in EE; try discriminate EE.
      injection EE as <- <- <-. split; [reflexivity|]. right. unfold newPreKeyWhisperMessage. cbv zeta. cbn [pk_ser]. do 6 eexists. reflexivity.
    - injection EE as <- <- <-. split; [reflexivity|]. now left. }
  destruct HB as [-> HB]. clear EE.
  split.
  - constructor; [|constructor]. split; [right; eauto|exact HP].
  - intros b0 ty0 E. injection E as <- <-.
    set (body := makeVersionByte 3 currentVersion :: encode (whisper_fields (cur a p) (ck_index (ck_at a p i)) (s_prev s) ct)).
    exists (mkEm a p i me (s_remote s) body pt).
    assert (EW : wm_ser wm = body ++ ev (tag_of (mkEm a p i me (s_remote s) body pt))).
    { unfold wm, newWhisperMessage. cbn [wm_ser]. fold body. f_equal. unfold tag_of, a_tag, getMac, ComputeTruncatedMAC, macLength.
      cbn [em_ag em_path em_idx em_from em_to em_body mk_mac mk_at]. change (3 >=? 3) with true. cbv iota.
      change (firstn 8 (hmac C (ev (a_mk a p i 32 32)) ((key_ser me ++ key_ser (s_remote s)) ++ body)) =
              firstn 8 (hmac C (ev (a_mk a p i 32 32)) (key_ser me ++ key_ser (s_remote s) ++ body))).
      now rewrite <- app_assoc. }
    exists s, ps. cbn [em_ag em_path em_idx em_from em_to em_body em_text]. split; [exact ES|]. split; [apply HS|].
    do 3 (split; [reflexivity|]). split; [exact L1|]. split; [exact L2|]. rewrite <- EW. split; [exact HB|].
    exists wm. split; [|exact EC]. apply (Load_newWhisper C OK).
    + exact Lk.
    + apply Z.mod_pos_bound. lia.
    + apply HS.
    + assert (HL : zlen ct <= zlen pt + 16); [|lia].
      pose proof (cipher_of_length C OK (ck_at a p i) pt Hw) as HL. unfold cipher_of in HL. rewrite keys_at, EC in HL. exact HL.
Qed.
End L.
