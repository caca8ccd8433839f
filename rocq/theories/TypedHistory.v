(* Every session that a history of API calls can reach is one that Go can hold in its types, so that
   the files written along a history represent the abstract stores. *)
From Coq Require Import ZArith List Lia Bool.
From Verif Require Import Bytes Res Wire WireProofs Crypto Cbc CbcProofs Messages MessagesProofs Session Builder
  SessionProofs SessionFacts History HistoryProofs RecordCodec RecordCodecProofs Decimal Storage StorageProofs.
Import ListNotations.
Open Scope Z_scope.

Lemma wfb_firstn n l : wfb l -> wfb (firstn n l). Proof. intros H. now apply Forall_firstn. Qed.
Lemma wfb_skipn n l : wfb l -> wfb (skipn n l).
Proof. intros H. rewrite <- (firstn_skipn n l) in H. apply wfb_app in H. tauto. Qed.

(* ---- what is parsed from bytes is bytes ---- *)
Lemma dec_varint_wf n bs v r : wfb bs -> dec_varint n bs = Some (v, r) -> wfb r.
Proof.
  revert bs v r. induction n as [|n IH]; intros [|b bs] v r H; cbn [dec_varint]; try discriminate.
  inversion H; subst. destruct n.
  - destruct (b <? 2); [|discriminate]. intros E; now injection E as _ <-.
  - destruct (b <? 128); [intros E; now injection E as _ <-|].
    destruct (dec_varint (S n) bs) as [[v' r']|] eqn:E; [|discriminate]. intros E'; injection E' as _ <-. eapply IH; eauto.
Qed.
Lemma dec_tag_wf bs n t r : wfb bs -> dec_tag bs = Some (n, t, r) -> wfb r.
Proof.
  intros H. unfold dec_tag. destruct (unvarint bs) as [[v r']|] eqn:E; [|discriminate].
  destruct (_ || _); [discriminate|]. intros E'; injection E' as _ _ <-. eapply dec_varint_wf; eauto.
Qed.
Lemma take_n_wf n bs a r : wfb bs -> take_n n bs = Some (a, r) -> wfb a /\ wfb r.
Proof.
  intros H. unfold take_n. destruct (Nat.leb _ _); [|discriminate]. intros E.
  split; [injection E as <- _|injection E as _ <-]; auto using wfb_firstn, wfb_skipn.
Qed.
Lemma take_len_wf bs a r : wfb bs -> take_len bs = Some (a, r) -> wfb a /\ wfb r.
Proof.
  intros H. unfold take_len. destruct (unvarint bs) as [[v r']|] eqn:E; [|discriminate].
  assert (wfb r') by (eapply dec_varint_wf; eauto).
  destruct (_ <=? _); [|discriminate]. intros E'.
  split; [injection E' as <- _|injection E' as _ <-]; auto using wfb_firstn, wfb_skipn.
Qed.
Lemma skip_group_wf fuel num bs r : wfb bs -> skip_group fuel num bs = Some r -> wfb r.
Proof.
  revert num bs r. induction fuel as [|f IH]; intros num bs r H; cbn [skip_group]; [discriminate|].
  destruct (dec_tag bs) as [[[n t] r0]|] eqn:T; [|discriminate]. apply dec_tag_wf in T; auto.
  destruct (t =? 4). { destruct (n =? num); [|discriminate]. intros E; now injection E as <-. }
  set (next := if t =? 0 then _ else _). cbv zeta.
  assert (N : forall x, next = Some x -> wfb x).
  { intros x. unfold next. destruct (t =? 0).
    { destruct (unvarint r0) as [[v r']|] eqn:E; [|discriminate]. intros E'; injection E' as <-. eapply dec_varint_wf; eauto. }
    destruct (t =? 1).
    { destruct (take_n 8 r0) as [[v r']|] eqn:E; [|discriminate]. intros E'; injection E' as <-. eapply take_n_wf; eauto. }
    destruct (t =? 2).
    { destruct (take_len r0) as [[v r']|] eqn:E; [|discriminate]. intros E'; injection E' as <-. eapply take_len_wf; eauto. }
    destruct (t =? 3). { apply IH; auto. }
    destruct (t =? 5); [|discriminate].
    destruct (take_n 4 r0) as [[v r']|] eqn:E; [|discriminate]. intros E'; injection E' as <-. eapply take_n_wf; eauto. }
  destruct next as [r'|]; [|discriminate]. apply IH. auto.
Qed.
Definition wf_field (f : wfield) : Prop := match snd f with WLen b => wfb b | _ => True end.
Lemma parse_fuel_wf fuel : forall bs fs, wfb bs -> parse_fuel fuel bs = Some fs -> Forall wf_field fs.
Proof.
  induction fuel as [|f IH]; intros bs fs H.
  - destruct bs; cbn [parse_fuel]; [|discriminate]. intros E; injection E as <-. constructor.
  - destruct bs as [|b0 bs0]; cbn [parse_fuel]. { intros E; injection E as <-. constructor. }
    destruct (dec_tag (b0 :: bs0)) as [[[n t] r0]|] eqn:T; [|discriminate]. apply dec_tag_wf in T; auto.
    assert (K : forall l r', Forall wf_field l -> wfb r' ->
       match parse_fuel f r' with Some rest => Some (l ++ rest) | None => None end = Some fs -> Forall wf_field fs).
    { intros l r' Hl Hr. destruct (parse_fuel f r') as [rest|] eqn:E; [|discriminate]. intros E'; injection E' as <-.
      apply Forall_app. split; auto. eapply IH; eauto. }
    destruct (t =? 0).
    { destruct (unvarint r0) as [[v r']|] eqn:E; [|discriminate]. apply K; [repeat constructor|eapply dec_varint_wf; eauto]. }
    destruct (t =? 1).
    { destruct (take_n 8 r0) as [[v r']|] eqn:E; [|discriminate]. apply K; [repeat constructor|eapply take_n_wf; eauto]. }
    destruct (t =? 2).
    { destruct (take_len r0) as [[v r']|] eqn:E; [|discriminate]. apply take_len_wf in E; auto. destruct E.
      apply K; auto. }
    destruct (t =? 3).
    { destruct (skip_group (length r0) n r0) as [r'|] eqn:E; [|discriminate]. apply K; [constructor|eapply skip_group_wf; eauto]. }
    destruct (t =? 5); [|discriminate].
    destruct (take_n 4 r0) as [[v r']|] eqn:E; [|discriminate]. apply K; [repeat constructor|eapply take_n_wf; eauto].
Qed.
Lemma get_len_wf n fs b : Forall wf_field fs -> get_len n fs = Some b -> wfb b.
Proof.
  induction 1 as [|[m v] fs Hv _ IH]; cbn [get_len]; [discriminate|].
  destruct (get_len n fs); [intros E; injection E as <-; auto|].
  destruct (m =? n); [|discriminate]. destruct v; try discriminate. intros E; injection E as <-. exact Hv.
Qed.

Lemma key_unser_wf b k : wfb b -> key_unser b = Ok k -> wfb k.
Proof.
  destruct b as [|x b]; cbn [key_unser]; [discriminate|]. unfold key32. destruct (Nat.eqb _ _); [|discriminate].
  intros H E. injection E as <-. now inversion H.
Qed.
Lemma to_u32_range v : u32 (to_u32 v).
Proof. unfold to_u32, u32. apply Z.mod_pos_bound. lia. Qed.
Lemma u32_0 : u32 0. Proof. unfold u32. lia. Qed.

Record good_wmsg (m : wmsg) : Prop := { gw_rkey : wfb (wm_rkey m); gw_counter : u32 (wm_counter m) }.
Lemma load_whisper_good b m : wfb b -> LoadWhisperMessage b = Ok m -> good_wmsg m.
Proof.
  intros H. unfold LoadWhisperMessage. destruct (_ <? 1); [discriminate|]. cbv zeta. destruct (negb _); [discriminate|].
  destruct (parse _) as [fs|] eqn:P; [|discriminate].
  assert (F : Forall wf_field fs). { eapply parse_fuel_wf; [|exact P]. apply wfb_skipn. now apply wfb_firstn. }
  destruct (get_len 4 fs) as [ct|]; [|discriminate]. destruct (get_len 1 fs) as [rk|] eqn:G; [|discriminate].
  apply get_len_wf in G; auto. destruct (key_unser rk) as [k|e|] eqn:K; cbn [bind]; try discriminate.
  intros E. injection E as <-. constructor; cbn [wm_rkey wm_counter].
  - eapply key_unser_wf; eauto.
  - destruct (get_varint 2 fs); [apply to_u32_range|apply u32_0].
Qed.
Record good_pkmsg (m : pkmsg) : Prop := {
  gp_reg : u32 (pk_reg m); gp_pkid : u32 (pk_pkid m); gp_base : wfb (pk_base m); gp_ident : wfb (pk_ident m);
  gp_msg : good_wmsg (pk_msg m) }.
Lemma load_prekey_good b m : wfb b -> LoadPreKeyWhisperMessage b = Ok m -> good_pkmsg m.
Proof.
  intros H. unfold LoadPreKeyWhisperMessage. destruct b as [|b0 body]; [discriminate|]. cbv zeta.
  destruct (negb _); [discriminate|]. destruct (parse body) as [fs|] eqn:P; [|discriminate].
  assert (F : Forall wf_field fs). { eapply parse_fuel_wf; [|exact P]. now inversion H. }
  destruct (get_len 2 fs) as [base|] eqn:G2; [|discriminate]. destruct (get_len 3 fs) as [ident|] eqn:G3; [|discriminate].
  destruct (get_len 4 fs) as [msg|] eqn:G4; [|discriminate].
  apply get_len_wf in G2; auto. apply get_len_wf in G3; auto. apply get_len_wf in G4; auto.
  destruct (_ =? 0); [discriminate|].
  destruct (LoadWhisperMessage msg) as [wm|e|] eqn:L; cbn [bind]; try discriminate.
  destruct (key_unser base) as [bk|e|] eqn:K1; cbn [bind]; try discriminate.
  destruct (key_unser ident) as [ik|e|] eqn:K2; cbn [bind]; try discriminate.
  intros E. injection E as <-. constructor; cbn [pk_reg pk_pkid pk_base pk_ident pk_msg].
  - destruct (get_varint 5 fs); [apply to_u32_range|apply u32_0].
  - destruct (get_varint 1 fs); [apply to_u32_range|apply u32_0].
  - exact (key_unser_wf _ _ G2 K1).
  - exact (key_unser_wf _ _ G3 K2).
  - exact (load_whisper_good _ _ G4 L).
Qed.

(* ---- the state functions ---- *)
Section G.
Variable C : crypto.
Hypothesis OK : crypto_ok C.

Lemma clamp_wf r : wfb r -> wfb (clamp r).
Proof.
  intros H. destruct r as [|b t]; [constructor|]. cbn [clamp]. inversion H as [|? ? Hb Ht]; subst.
  assert (L : forall x m, 0 <= x -> 0 <= m < 256 -> isbyte (Z.land x m)).
  { intros x m Hx Hm. unfold isbyte. split; [apply Z.land_nonneg; lia|].
    assert (Z.land x m <= m); [|lia]. rewrite Z.land_comm. 
    apply Z.ldiff_le; [lia|]. rewrite Z.ldiff_land. apply Z.bits_inj'. intros n Hn.
    rewrite !Z.land_spec, Z.lnot_spec, Z.bits_0 by lia. destruct (Z.testbit m n), (Z.testbit x n); reflexivity. }
  constructor.
  - apply L; [unfold isbyte in Hb; lia|lia].
  - apply wfb_app. split; [now apply wfb_firstn|]. constructor; [|constructor].
    set (x := nth 30 t 0). assert (0 <= x).
    { unfold x. destruct (Nat.ltb_spec 30 (length t)) as [G|G].
      - apply (Forall_nth _ t) with (i := 30%nat) (d := 0) in Ht; auto. unfold isbyte in Ht. lia.
      - rewrite nth_overflow by lia. lia. }
    assert (E : Z.land x 63 = x mod 64) by (change 63 with (Z.ones 6); rewrite Z.land_ones by lia; reflexivity).
    rewrite E. pose proof (Z.mod_pos_bound x 64 ltac:(lia)) as B. generalize dependent (x mod 64). intros y _ B.
    assert (E2 : Z.lor y 64 = y + 64).
    { rewrite <- Z.lxor_lor, <- Z.add_nocarry_lxor; auto; apply Z.bits_inj'; intros n Hn; rewrite Z.land_spec, Z.bits_0;
      (destruct (Z.eqb_spec n 6) as [->|N];
        [rewrite (Z.bits_above_log2 y 6); [reflexivity|lia|];
         destruct (Z.eq_dec y 0) as [->|]; [cbn; lia|apply Z.log2_lt_pow2; lia]
        |change 64 with (2 ^ 6); rewrite Z.pow2_bits_false by lia; apply andb_false_r]). }
    rewrite E2. unfold isbyte. lia.
Qed.

Lemma createChain_good root their priv : wfb (fst (createChain C root their priv)) /\ good_ck (snd (createChain C root their priv)).
Proof.
  unfold createChain. cbn [fst snd]. pose proof (hkdf_wf C OK (dh C priv their) root str_ratchet 64) as W.
  split; [now apply wfb_firstn|]. split; [apply u32_0|]. cbn [ck_key]. now apply wfb_skipn.
Qed.
Lemma derived_good km : wfb (fst (calculateDerivedKeys C km)) /\ good_ck (snd (calculateDerivedKeys C km)).
Proof.
  unfold calculateDerivedKeys. cbn [fst snd]. pose proof (hkdf_wf C OK km [] str_text 64) as W.
  split; [now apply wfb_firstn|]. split; [apply u32_0|]. cbn [ck_key]. now apply wfb_skipn.
Qed.
Lemma next_good c : good_ck (getNextChainKey C c).
Proof. split; cbn [getNextChainKey ck_index ck_key]; [apply Z.mod_pos_bound; lia|apply (hmac_wf C OK)]. Qed.
Lemma mks_good c : good_ck c -> good_mk (getMessageKeys C c).
Proof.
  intros [H1 _]. pose proof (hkdf_wf C OK (hmac C (ck_key c) [1]) [] str_msgkeys 80) as W.
  unfold good_mk, getMessageKeys. cbn [mk_index mk_cipher mk_mac mk_iv].
  split; [exact H1|]. split; [now apply wfb_firstn|]. split; [apply wfb_firstn|]; now apply wfb_skipn.
Qed.
Lemma skip_good n : forall c acc, good_ck c -> Forall good_mk acc ->
  good_ck (fst (skip_keys C n c acc)) /\ Forall good_mk (snd (skip_keys C n c acc)).
Proof.
  induction n as [|n IH]; intros c acc Hc Ha; cbn [skip_keys fst snd]; [auto|]. apply IH; [apply next_good|].
  apply Forall_app. split; auto. constructor; auto. now apply mks_good.
Qed.

Lemma addReceiver_good l rk ck : Forall good_chain l -> wfb rk -> good_ck ck -> Forall good_chain (addReceiverChain l rk ck).
Proof.
  intros H Hr Hc. unfold addReceiverChain.
  assert (F : Forall good_chain (l ++ [mkChain rk [] (Some ck) []])).
  { apply Forall_app. split; auto. constructor; [|constructor]. split; [exact Hr|split; [constructor|split; [exact Hc|constructor]]]. }
  destruct (Nat.ltb _ _); auto. destruct (l ++ _); [constructor|now inversion F].
Qed.
Lemma find_good rk l c : Forall good_chain l -> find_chain rk l = Some c -> good_chain c.
Proof.
  induction 1 as [|x l Hx _ IH]; cbn [find_chain]; [discriminate|]. destruct (beq rk _); auto. intros E; now injection E as <-.
Qed.
Lemma upd_good rk f l : Forall good_chain l -> (forall c, good_chain c -> good_chain (f c)) -> Forall good_chain (upd_chain rk f l).
Proof.
  intros H Hf. induction H as [|x l Hx Hl IH]; cbn [upd_chain]; [constructor|]. destruct (beq rk _); constructor; auto.
Qed.
Lemma take_good i l k r : Forall good_mk l -> take_mk i l = Some (k, r) -> good_mk k /\ Forall good_mk r.
Proof.
  intros H. revert k r. induction H as [|x l Hx Hl IH]; intros k r; cbn [take_mk]; [discriminate|].
  destruct (i =? _). { intros E; injection E as <- <-. auto. }
  destruct (take_mk i l) as [[m r']|]; [|discriminate]. intros E; injection E as <- <-. destruct (IH _ _ eq_refl). auto.
Qed.

Lemma with_recv_good s v : good_state s -> Forall good_chain v -> good_state (with_recv s v).
Proof. intros [] H. constructor; cbn; auto. Qed.
Lemma with_root_good s v : good_state s -> wfb v -> good_state (with_root s v).
Proof. intros [] H. constructor; cbn; auto. Qed.
Lemma with_prev_good s v : good_state s -> u32 v -> good_state (with_prev s v).
Proof. intros [] H. constructor; cbn; auto. Qed.
Lemma with_sender_good s c : good_state s -> good_chain c -> good_state (with_sender s (Some c)).
Proof. intros [] H. constructor; cbn; auto. Qed.
Lemma with_pending_good s p : good_state s -> match p with Some p => good_pending p | None => True end -> good_state (with_pending s p).
Proof. intros [] H. constructor; cbn; auto. Qed.
Lemma with_ids_good s v l r : good_state s -> u32 v -> wfb l -> wfb r -> good_state (with_ids s v l r).
Proof. intros [] H1 H2 H3. constructor; cbn; auto. Qed.
Lemma with_regs_good s a b k : good_state s -> u32 a -> u32 b -> wfb k -> good_state (with_regs s a b k).
Proof. intros [] H1 H2 H3. constructor; cbn; auto. Qed.
Lemma empty_good : good_state empty_ss.
Proof. constructor; cbn; auto using u32_0; constructor. Qed.

Lemma gocck_good s rk rnd c s1 : good_state s -> wfb rk -> wfb rnd -> getOrCreateChainKey C s rk rnd = Ok (c, s1) ->
  good_ck c /\ good_state s1.
Proof.
  intros G Hr Hn. unfold getOrCreateChainKey. destruct (find_chain rk (s_recv s)) as [rc|] eqn:F.
  - destruct (load_ck (ch_ck rc)) as [k|e|] eqn:L; cbn [bind]; try discriminate. intros E. injection E as <- <-.
    apply load_ck_inv in L. destruct L as [L _]. pose proof (find_good _ _ _ (go_recv _ G) F) as (_ & _ & Q & _).
    rewrite L in Q. auto.
  - intros H. apply bind_ok in H. destruct H as (root & _ & H). destruct (s_sender s) as [sc|] eqn:S; [|discriminate].
    apply bind_ok in H. destruct H as (priv & _ & H). apply bind_ok in H. destruct H as (x & _ & H).
    pose proof (createChain_good root rk priv) as [A1 A2]. destruct (createChain C root rk priv) as [root1 rck]. cbn [fst snd] in *.
    pose proof (createChain_good root1 rk (clamp rnd)) as [B1 B2]. destruct (createChain C root1 rk (clamp rnd)) as [root2 sck]. cbn [fst snd] in *.
    apply bind_ok in H. destruct H as (old & L & H). apply load_ck_inv in L. destruct L as [L _].
    pose proof (go_sender _ G) as GS. rewrite S in GS. destruct GS as (_ & _ & GS & _). rewrite L in GS. destruct GS as [GS _].
    injection H as <- <-. split; auto. apply with_sender_good.
    + apply with_prev_good.
      * apply with_recv_good; [apply with_root_good; auto|]. apply addReceiver_good; auto. apply (go_recv _ G).
      * unfold u32 in *. destruct (Z.gtb_spec (ck_index old) 0); lia.
    + split; [apply (basepub_wf C OK)|split; [now apply clamp_wf|split; [exact B2|constructor]]].
Qed.
Lemma gocmk_good s rk c n r s2 : good_state s -> good_ck c -> getOrCreateMessageKeys C s rk c n = (r, s2) -> good_state s2.
Proof.
  intros G Hc. unfold getOrCreateMessageKeys. destruct (ck_index c >? n).
  - destruct (find_chain rk (s_recv s)) as [rc|] eqn:F; [|intros E; injection E as _ <-; auto].
    destruct (take_mk n (ch_mks rc)) as [[k rest]|] eqn:T; [|intros E; injection E as _ <-; auto].
    intros E; injection E as _ <-. pose proof (find_good _ _ _ (go_recv _ G) F) as (_ & _ & _ & Q).
    destruct (take_good _ _ _ _ Q T) as [_ Q2]. apply with_recv_good; auto. apply upd_good; [apply (go_recv _ G)|].
    intros d (D1 & D2 & D3 & D4). split; [exact D1|split; [exact D2|split; [exact D3|exact Q2]]].
  - destruct (too_far _ _ _); [intros E; injection E as _ <-; auto|].
    destruct (find_chain rk (s_recv s)) as [rc|] eqn:F; [|intros E; injection E as _ <-; auto].
    pose proof (find_good _ _ _ (go_recv _ G) F) as (_ & _ & _ & Q).
    pose proof (skip_good (Z.to_nat (n - ck_index c)) c (ch_mks rc) Hc Q) as [A1 A2].
    destruct (skip_keys C (Z.to_nat (n - ck_index c)) c (ch_mks rc)) as [c' mks]. cbn [fst snd] in *.
    intros E; injection E as _ <-. apply with_recv_good; auto. apply upd_good; [apply (go_recv _ G)|].
    intros d (D1 & D2 & D3 & D4). split; [exact D1|split; [exact D2|split; [apply next_good|exact A2]]].
Qed.
Lemma ss_decrypt_good s m rnd r s' : good_state s -> good_wmsg m -> wfb rnd -> ss_decrypt C s m rnd = (r, s') -> good_state s'.
Proof.
  intros G [M1 M2] Hn E. destruct (ss_decrypt_cases _ _ _ _ _ _ E) as [(-> & _)|(c & s1 & rc & G1 & _ & _ & _ & H1)]; auto.
  destruct (gocck_good _ _ _ _ _ G M1 Hn G1) as [Gc Gs].
  destruct H1 as [(e & _ & _ & ->)|(mk & s2 & G2 & H1)]; auto.
  pose proof (gocmk_good _ _ _ _ _ _ Gs Gc G2) as G3.
  destruct H1 as [(_ & -> & _)|(p & _ & -> & _)]; auto. now apply with_pending_good.
Qed.

Definition good_record (r : srecord) : Prop := Forall good_state (r_cur r :: r_prevs r).

Lemma try_prevs_good m rnd l : good_wmsg m -> (forall i, wfb (rnd i)) -> forall i r l', Forall good_state l ->
  try_prevs C l m rnd i = (r, l') ->
  Forall good_state l' /\ (forall p s2, r = Ok (Some (p, s2)) -> good_state s2).
Proof.
  intros Hm Hn. induction l as [|s l IH]; intros i r l' H; cbn [try_prevs].
  - intros E; injection E as <- <-. split; [constructor|congruence].
  - inversion H as [|? ? H1 H2]; subst.
    destruct (ss_decrypt C s m (rnd i)) as [[q|e|] s3] eqn:E3; pose proof (ss_decrypt_good _ _ _ _ _ H1 Hm (Hn i) E3) as G.
    + intros E; injection E as <- <-. split; [now constructor|]. intros p s2 X. now injection X as _ <-.
    + destruct (try_prevs C l m rnd (S i)) as [q t'] eqn:E4. intros E. injection E as <- <-.
      destruct (IH _ _ _ H2 E4) as (I1 & I3). split; [now constructor|auto].
    + intros E; injection E as <- <-. split; [now constructor|congruence].
Qed.
Lemma promote_good r s : good_record r -> good_state s -> good_record (promoteState r s).
Proof.
  intros H Hs. unfold good_record, promoteState. cbn [r_cur r_prevs]. constructor; auto.
  destruct (Nat.ltb 40 (length (r_cur r :: r_prevs r))); auto.
  apply Forall_forall. intros x Hx. unfold good_record in H. rewrite Forall_forall in H. apply H.
  revert Hx. generalize (r_cur r :: r_prevs r). induction l as [|a l IH]; cbn [removelast]; [auto|].
  destruct l; [intros []|]. intros [->|Hx]; [now left|right; auto].
Qed.
Lemma sc_decrypt_good r m rnd q r' : good_record r -> good_wmsg m -> (forall i, wfb (rnd i)) ->
  sc_decrypt C r m rnd = (q, r') -> good_record r'.
Proof.
  intros H Hm Hn E. inversion H as [|? ? Hc Hp]; subst. unfold sc_decrypt in E.
  destruct (ss_decrypt C (r_cur r) m (rnd 0%nat)) as [[p|e|] s1] eqn:E1;
    pose proof (ss_decrypt_good _ _ _ _ _ Hc Hm (Hn 0%nat) E1) as G.
  - injection E as <- <-. now constructor.
  - destruct (try_prevs C (r_prevs r) m rnd 1) as [q' l] eqn:T.
    destruct (try_prevs_good _ _ _ Hm Hn _ _ _ Hp T) as (T1 & T3).
    assert (S1 : good_record (mkSr s1 l (r_fresh r))) by now constructor.
    destruct q' as [[[p s2]|]|e2|]; injection E as <- <-; auto. apply promote_good; auto. eapply T3; reflexivity.
  - injection E as <- <-. now constructor.
Qed.

(* ---- worlds and calls ---- *)
Record good_world (w : world) : Prop := {
  gd_sess : forall rid dev c p, w_sess w rid dev = Some (c, p) -> Forall good_state (c :: p);
  gd_ident : wfb (fst (w_ident w)) /\ wfb (snd (w_ident w));
  gd_reg : u32 (w_reg w);
  gd_spk : forall id kp, w_spk w id = Some kp -> wfb (fst kp) /\ wfb (snd kp) }.
Definition good_call (c : call) : Prop :=
  match c with
  | CEnc rid dev pt => u32 dev
  | CRecv rid dev ty b rnd => u32 dev /\ wfb b /\ forall i, wfb (rnd i)
  | CBuild rid dev b rbase rratchet =>
      u32 dev /\ wfb rbase /\ wfb rratchet /\ u32 (b_reg b) /\ u32 (b_pkid b) /\ 0 <= b_spkid b < 2 ^ 31 /\
      wfb (b_ident b) /\ match b_spk b with Some k => wfb k | None => True end
  end.
(* good_eff without the bound on the size of the record *)
Definition fine_eff (e : eff) : Prop :=
  match e with
  | EStoreSession rid dev c p => u32 dev /\ Forall good_state (c :: p)
  | ERemovePreKey id => u32 id
  | ESaveIdentity rid k => wfb k
  end.

Lemma load_good w rid dev : good_world w -> good_record (LoadSession w rid dev).
Proof.
  intros H. unfold LoadSession, good_record. destruct (w_sess w rid dev) as [[c p]|] eqn:E; cbn.
  - eapply gd_sess; eauto.
  - constructor; [apply empty_good|constructor].
Qed.
Lemma archive_good r : good_record r -> good_record (if r_fresh r then r else archiveCurrentState r).
Proof. intros H. destruct (r_fresh r); auto. apply promote_good; auto. apply empty_good. Qed.

Lemma eff_good_world w e : good_world w -> fine_eff e -> good_world (apply_eff w e).
Proof.
  intros [H1 H2 H3 H4] G. destruct e; cbn [apply_eff fine_eff] in *; constructor; cbn; auto.
  intros r d c p. destruct (beq r rid && (d =? dev)); [|apply H1]. intros E; injection E as <- <-. tauto.
Qed.
Lemma effs_good_world l : forall w, good_world w -> Forall fine_eff l -> good_world (apply_effs w l).
Proof.
  induction l as [|e l IH]; intros w H F; [exact H|]. inversion F; subst.
  change (apply_effs w (e :: l)) with (apply_effs (apply_eff w e) l). apply IH; auto. now apply eff_good_world.
Qed.

Lemma initS_good s a b c d e f rnd : good_state s -> wfb a -> wfb d -> wfb e -> wfb rnd ->
  good_state (initializeSenderSession C s a b c d e f rnd).
Proof.
  intros G Ha Hd He Hn. unfold initializeSenderSession. cbv zeta.
  set (km := _ ++ _). pose proof (derived_good km) as [A1 A2]. destruct (calculateDerivedKeys C km) as [root0 ck0]. cbn [fst snd] in *.
  pose proof (createChain_good root0 e (clamp rnd)) as [B1 B2]. destruct (createChain C root0 e (clamp rnd)) as [root1 sck]. cbn [fst snd] in *.
  assert (G1 : good_state (with_ids s 3 a d)) by (apply with_ids_good; auto; unfold u32; lia).
  apply with_root_good; auto. apply with_sender_good.
  - apply with_recv_good; auto. apply addReceiver_good; auto. apply (go_recv _ G1).
  - split; [apply (basepub_wf C OK)|split; [now apply clamp_wf|split; [exact B2|constructor]]].
Qed.
Lemma initR_good s a b c d e f g : good_state s -> wfb a -> wfb c -> wfb d -> wfb g ->
  good_state (initializeReceiverSession C s a b c d e f g).
Proof.
  intros G Ha Hc Hd Hg. unfold initializeReceiverSession. cbv zeta.
  set (km := _ ++ _). pose proof (derived_good km) as [A1 A2]. destruct (calculateDerivedKeys C km) as [root0 ck0]. cbn [fst snd] in *.
  assert (G1 : good_state (with_ids s 3 a g)) by (apply with_ids_good; auto; unfold u32; lia).
  apply with_root_good; auto. apply with_sender_good; auto.
  split; [exact Hc|split; [exact Hd|split; [exact A2|constructor]]].
Qed.
Lemma key_ser_wf k : wfb k -> wfb (key_ser k).
Proof. intros H. constructor; [unfold isbyte; lia|exact H]. Qed.

Lemma build_recv_good w rid r m q l : good_world w -> good_record r -> good_pkmsg m ->
  BuildReceiverSession C w rid r m = (q, l) ->
  Forall fine_eff l /\ (forall pkid r1, q = Ok (pkid, r1) -> u32 pkid /\ good_record r1).
Proof.
  intros W R [M1 M2 M3 M4 M5]. unfold BuildReceiverSession.
  destruct (negb _); [intros E; injection E as <- <-; split; [constructor|congruence]|].
  destruct (negb _); [intros E; injection E as <- <-; split; [constructor|congruence]|].
  destruct (hasSessionState _ _ _).
  { intros E; injection E as <- <-; split; [constructor|]. intros pkid r1 X. injection X as <- <-. auto using u32_0. }
  destruct (w_spk w (pk_spkid m)) as [spk0|] eqn:S; cbn [of_option bind].
  2:{ intros E; injection E as <- <-; split; [constructor|congruence]. }
  destruct (load_kp spk0) as [spk|e|] eqn:LK; cbn [bind]; try (intros E; injection E as <- <-; split; [constructor|congruence]).
  assert (GK : wfb (fst spk) /\ wfb (snd spk)).
  { pose proof (gd_spk _ W _ _ S) as [K1 K2]. unfold load_kp, key32 in LK.
    destruct (Nat.eqb (length (fst spk0)) 32); cbn [bind] in LK; [|discriminate].
    destruct (Nat.eqb (length (snd spk0)) 32); cbn [bind] in LK; [|discriminate]. injection LK as <-. auto. }
  match goal with |- context [bind ?x _] => destruct x as [otk|e|] end; cbn [bind];
    intros E; injection E as <- <-; (split; [repeat constructor; try exact M4|]); intros pkid0 r0 X; try discriminate X.
  injection X as <- <-. split; auto.
  pose proof (archive_good r R) as A. set (r1 := if r_fresh r then r else archiveCurrentState r) in *.
  inversion A as [|? ? A1 A2]; subst x l. constructor; cbn [r_cur r_prevs]; auto. destruct GK.
  apply with_regs_good; auto using key_ser_wf. 2: apply (gd_reg _ W).
  apply initR_good; auto. apply (gd_ident _ W).
Qed.

Theorem call_fine w c : good_world w -> good_call c -> Forall fine_eff (snd (perform_call C w c)).
Proof.
  intros W G. destruct c as [rid dev pt|rid dev ty b rnd|rid dev b rbase rratchet]; cbn [perform_call good_call] in *.
  - unfold SessionEncryptMessage. destruct (ss_encrypt C (r_cur (LoadSession w rid dev)) pt) as [[[b ty] s']|e|] eqn:E; [|constructor|constructor].
    cbn [snd]. constructor; [|constructor]. split; auto. pose proof (load_good w rid dev W) as L. inversion L as [|? ? L1 L2]; subst.
    constructor; auto. apply ss_encrypt_inv in E. destruct E as (sc & c & ct & S & K & _ & _ & _ & _ & -> & _).
    pose proof (go_sender _ L1) as Q. rewrite S in Q. destruct Q as (Q1 & Q2 & Q3 & Q4).
    apply with_sender_good; auto. split; [exact Q1|split; [exact Q2|split; [apply next_good|exact Q4]]].
  - destruct G as (Hd & Hb & Hn). pose proof (load_good w rid dev W) as L. destruct ty; cbn [receive].
    + destruct (LoadWhisperMessage b) as [m|e|] eqn:LM; [|constructor|constructor]. apply load_whisper_good in LM; auto.
      unfold SessionDecryptWhisperMessage.
      destruct (sc_decrypt C (LoadSession w rid dev) m rnd) as [[pt|e|] r'] eqn:D; [|constructor|constructor].
      cbn [snd]. constructor; [|constructor]. cbn [fine_eff]. split; auto. eapply sc_decrypt_good; eauto.
    + destruct (LoadPreKeyWhisperMessage b) as [m|e|] eqn:LM; [|constructor|constructor]. apply load_prekey_good in LM; auto.
      unfold SessionDecryptPreKeyWhisperMessage.
      destruct (BuildReceiverSession C w rid (LoadSession w rid dev) m) as [q l1] eqn:B.
      destruct (build_recv_good _ _ _ _ _ _ W L LM B) as [F1 F2].
      destruct q as [[pkid r1]|e|]; auto. destruct (F2 _ _ eq_refl) as [U R1].
      destruct (sc_decrypt C r1 (pk_msg m) rnd) as [[pt|e|] r'] eqn:D; auto. cbn [snd].
      apply Forall_app. split; auto. apply Forall_app. split.
      * destruct (_ =? _); repeat constructor; auto; apply U.
      * constructor; [|constructor]. cbn [StoreSession fine_eff]. split; auto.
        eapply sc_decrypt_good; eauto. apply (gp_msg _ LM).
  - destruct G as (Hd & H1 & H2 & H3 & H4 & H5 & H6 & H7). unfold BuildSenderSession.
    destruct (negb _); [constructor|]. destruct (b_spk b) as [spk|]; [|constructor]. destruct (negb _); [constructor|].
    cbn [snd]. constructor; [|constructor; [exact H6|constructor]]. cbn [fine_eff]. split; auto.
    pose proof (archive_good _ (load_good w rid dev W)) as A.
    set (r1 := if r_fresh (LoadSession w rid dev) then _ else _) in *. inversion A as [|? ? A1 A2]; subst x l.
    constructor; auto. pose proof (basepub_wf C OK (clamp rbase)) as PB.
    apply with_regs_good; auto using key_ser_wf. 2: apply (gd_reg _ W).
    apply with_pending_good.
    + apply initS_good; auto. apply (gd_ident _ W).
    + split; [exact H4|split; [cbn; lia|now apply key_ser_wf]].
Qed.

(* ---- histories ---- *)
(* the writes of one step *)
Definition event_effs (w : world) (e : event) : list eff :=
  match e with
  | Done c => snd (perform_call C w c)
  | Crash c k => firstn k (snd (perform_call C w c))
  end.
Lemma estep_effs w e : fst (estep C w e) = apply_effs w (event_effs w e).
Proof. destruct e as [c|c k]; cbn [estep event_effs]; destruct (perform_call C w c) as [[b o] l]; reflexivity. Qed.
Fixpoint history_effs (w : world) (h : list event) : list eff :=
  match h with
  | [] => []
  | e :: t => event_effs w e ++ history_effs (apply_effs w (event_effs w e)) t
  end.
Lemma history_as_effs h : forall w, fst (history C w h) = apply_effs w (history_effs w h).
Proof.
  induction h as [|e h IH]; intros w; [reflexivity|]. cbn [history history_effs].
  pose proof (estep_effs w e) as E. destruct (estep C w e) as [w1 out]. cbn [fst] in E. subst.
  specialize (IH (apply_effs w (event_effs w e))). destruct (history C (apply_effs w (event_effs w e)) h) as [w2 outs]. cbn [fst] in *.
  unfold apply_effs at 1. rewrite fold_left_app. exact IH.
Qed.
Lemma event_fine w e : good_world w -> good_call (ecall e) -> Forall fine_eff (event_effs w e).
Proof.
  intros W G. destruct e as [c|c k]; cbn [event_effs ecall] in *; [|apply Forall_firstn]; now apply call_fine.
Qed.
Theorem history_fine h : forall w, good_world w -> Forall (fun e => good_call (ecall e)) h -> Forall fine_eff (history_effs w h).
Proof.
  induction h as [|e h IH]; intros w W G; cbn [history_effs]; [constructor|]. inversion G; subst.
  pose proof (event_fine w e W ltac:(assumption)) as F. apply Forall_app. split; auto. apply IH; auto. now apply effs_good_world.
Qed.
Theorem history_good h w : good_world w -> Forall (fun e => good_call (ecall e)) h -> good_world (fst (history C w h)).
Proof. intros W G. rewrite history_as_effs. apply effs_good_world; auto. now apply history_fine. Qed.

Definition fits_eff (e : eff) : Prop :=
  match e with EStoreSession rid dev c p => zlen (Serialize (mkSr c p false)) < 2 ^ 63 | _ => True end.
Theorem files_follow_history cf h w fs fs' : conf_ok cf -> good_world w -> Forall (fun e => good_call (ecall e)) h ->
  Forall fits_eff (history_effs w h) ->
  represents C cf fs w -> F_effs C cf fs (history_effs w h) fs' -> represents C cf fs' (fst (history C w h)).
Proof.
  intros K W G Z R F. rewrite history_as_effs. apply (effs_refine C OK cf fs w _ fs'); auto.
  pose proof (history_fine h w W G) as A. clear -A Z. induction A as [|e l He Hl IH]; [constructor|]. inversion Z; subst.
  constructor; auto. destruct e; cbn in *; tauto.
Qed.
End G.
