(* Invariants over histories of API calls *)
From Coq Require Import ZArith List Lia Bool.
From Verif Require Import Bytes Res Wire WireProofs Crypto Cbc CbcProofs Messages MessagesProofs Session
  Builder SessionProofs SessionFacts History.
Import ListNotations.
Open Scope Z_scope.

(* ---- generic: an invariant of single effects prefixes ---- *)
Lemma history_inv C (P : world -> Prop) :
  (forall w c k, P w -> P (apply_effs w (firstn k (snd (perform_call C w c))))) ->
  forall h w, P w -> P (fst (history C w h)).
Proof.
  intros Hs. induction h as [|e h IH]; intros w Hw; cbn [history fst]; auto.
  destruct (estep C w e) as [w1 out] eqn:E. destruct (history C w1 h) as [w2 outs] eqn:E2. cbn [fst].
  replace w2 with (fst (history C w1 h)) by now rewrite E2. apply IH.
  destruct e as [c|c k]; cbn [estep] in E; specialize (Hs w c); destruct (perform_call C w c) as [[b o] l];
    cbn [snd] in Hs; injection E as <- _.
  - specialize (Hs (length l) Hw). now rewrite firstn_all in Hs.
  - auto.
Qed.

(* ---- C12: bounded records ---- *)
Definition small_state (s : sstate) : Prop := (length (s_recv s) <= 5)%nat.
Definition small_record (c : sstate) (p : list sstate) : Prop :=
  Forall small_state (c :: p) /\ (length p <= 40)%nat.
Definition small_world (w : world) : Prop :=
  forall rid dev c p, w_sess w rid dev = Some (c, p) -> small_record c p.

Lemma addReceiverChain_small l rk ck : (length l <= 5)%nat -> (length (addReceiverChain l rk ck) <= 5)%nat.
Proof.
  intros H. unfold addReceiverChain.
  assert (L : length (l ++ [mkChain rk [] (Some ck) []]) = S (length l)) by (rewrite app_length; cbn; lia).
  destruct (Nat.ltb_spec 5 (length (l ++ [mkChain rk [] (Some ck) []]))) as [G|G]; [|lia].
  destruct (l ++ [mkChain rk [] (Some ck) []]); cbn [tl length] in *; lia.
Qed.

Lemma ss_decrypt_small C s m rnd r s' : small_state s -> ss_decrypt C s m rnd = (r, s') -> small_state s'.
Proof.
  unfold small_state. intros H E.
  destruct (ss_decrypt_cases _ _ _ _ _ _ E) as [(-> & _)|(c & s1 & rc & G1 & _ & _ & _ & H1)]; auto.
  assert (L1 : (length (s_recv s1) <= 5)%nat).
  { destruct (gocck_inv _ _ _ _ _ _ G1) as [(rc' & _ & _ & ->)|(sc & old & _ & _ & _ & _ & _ & R & _)]; auto.
    rewrite R. now apply addReceiverChain_small. }
  destruct H1 as [(e & _ & _ & ->)|(mk & s2 & G2 & H1)]; auto.
  destruct (gocmk_frame _ _ _ _ _ _ _ G2) as (_ & _ & _ & _ & _ & _ & L2 & _).
  destruct H1 as [(_ & -> & _)|(p & _ & -> & _)]; cbn [with_pending s_recv]; lia.
Qed.

Lemma try_prevs_small C m rnd l : forall i r l', Forall small_state l -> try_prevs C l m rnd i = (r, l') ->
  Forall small_state l' /\ length l' = length l /\ (forall p s2, r = Ok (Some (p, s2)) -> small_state s2).
Proof.
  induction l as [|s l IH]; intros i r l' H; cbn [try_prevs].
  - intros E; injection E as <- <-. split; [constructor|split; [reflexivity|congruence]].
  - inversion H as [|? ? H1 H2]; subst.
    destruct (ss_decrypt C s m (rnd i)) as [[q|e|] s3] eqn:E3; pose proof (ss_decrypt_small _ _ _ _ _ _ H1 E3) as G.
    + intros E; injection E as <- <-. split; [now constructor|split; [reflexivity|]].
      intros p s2 X. now injection X as _ <-.
    + destruct (try_prevs C l m rnd (S i)) as [q t'] eqn:E4. intros E. injection E as <- <-.
      destruct (IH _ _ _ H2 E4) as (I1 & I2 & I3). split; [now constructor|split; [cbn; congruence|auto]].
    + intros E; injection E as <- <-. split; [now constructor|split; [reflexivity|congruence]].
Qed.

Lemma promote_small r s : small_record (r_cur r) (r_prevs r) -> small_state s ->
  small_record (r_cur (promoteState r s)) (r_prevs (promoteState r s)).
Proof.
  intros [H1 H2] Hs. unfold promoteState. cbn [r_cur r_prevs]. split.
  - constructor; auto. destruct (Nat.ltb 40 (length (r_cur r :: r_prevs r))); auto.
    apply Forall_forall. intros x Hx. rewrite Forall_forall in H1. apply H1.
    revert Hx. generalize (r_cur r :: r_prevs r). induction l as [|a l IH]; cbn [removelast]; [auto|].
    destruct l; [intros []|]. intros [->|Hx]; [now left|right; auto].
  - destruct (Nat.ltb_spec 40 (length (r_cur r :: r_prevs r))) as [G|G]; auto.
    assert (L : forall (l : list sstate), length (removelast l) = Nat.pred (length l)).
    { induction l as [|a l IH]; [reflexivity|]. cbn [removelast]. destruct l; [reflexivity|]. cbn [length] in *. lia. }
    rewrite L. cbn [length] in *. lia.
Qed.

Lemma sc_decrypt_small C r m rnd q r' : small_record (r_cur r) (r_prevs r) ->
  sc_decrypt C r m rnd = (q, r') -> small_record (r_cur r') (r_prevs r').
Proof.
  intros [H1 H2] E. inversion H1 as [|? ? Hc Hp]; subst. unfold sc_decrypt in E.
  destruct (ss_decrypt C (r_cur r) m (rnd 0%nat)) as [[p|e|] s1] eqn:E1;
    pose proof (ss_decrypt_small _ _ _ _ _ _ Hc E1) as G.
  - injection E as <- <-. cbn. split; auto.
  - destruct (try_prevs C (r_prevs r) m rnd 1) as [q' l] eqn:T.
    destruct (try_prevs_small _ _ _ _ _ _ _ Hp T) as (T1 & T2 & T3).
    assert (S1 : small_record s1 l) by (split; [now constructor|lia]).
    destruct q' as [[[p s2]|]|e2|]; injection E as <- <-; auto.
    apply promote_small; cbn [r_cur r_prevs]; auto. eapply T3; reflexivity.
  - injection E as <- <-. cbn. split; auto.
Qed.

Lemma load_small w rid dev : small_world w ->
  small_record (r_cur (LoadSession w rid dev)) (r_prevs (LoadSession w rid dev)).
Proof.
  intros H. unfold LoadSession. destruct (w_sess w rid dev) as [[c p]|] eqn:E; [eapply H; eauto|].
  cbn. split; [repeat constructor|cbn; lia].
Qed.

Lemma set_sess_small w rid dev c p : small_world w -> small_record c p -> small_world (set_sess w rid dev (Some (c, p))).
Proof.
  intros H Hs r d c' p'. cbn [set_sess w_sess]. destruct (beq r rid && (d =? dev)); [|apply H].
  intros E; now injection E as <- <-.
Qed.

Lemma empty_small : small_state empty_ss.
Proof. unfold small_state. cbn. lia. Qed.

Lemma archive_small r : small_record (r_cur r) (r_prevs r) ->
  let r1 := if r_fresh r then r else archiveCurrentState r in small_record (r_cur r1) (r_prevs r1).
Proof.
  intros H. cbv zeta. destruct (r_fresh r); auto. apply promote_small; auto using empty_small.
Qed.

Lemma build_recv_inv C w rid r m v l : BuildReceiverSession C w rid r m = (Ok v, l) ->
  (v = (0, r) /\ l = [] /\ hasSessionState r (pk_version m) (key_ser (pk_base m)) = true) \/
  (exists spk otk r1, l = [ESaveIdentity rid (pk_ident m)] /\
     r1 = (if r_fresh r then r else archiveCurrentState r) /\
     v = (pk_pkid m, mkSr (with_regs (initializeReceiverSession C (r_cur r1) (snd (w_ident w)) (fst (w_ident w))
                  (snd spk) (fst spk) otk (pk_base m) (pk_ident m)) (pk_reg m) (w_reg w) (key_ser (pk_base m)))
                 (r_prevs r1) (r_fresh r1))).
Proof.
  unfold BuildReceiverSession. destruct (negb _); [discriminate|]. destruct (negb _); [discriminate|].
  destruct (hasSessionState _ _ _). { intros H; injection H as <- <-. auto. }
  destruct (of_option ENotFound _) as [spk|e|]; cbn [bind]; try discriminate.
  destruct (load_kp spk) as [spk'|e|]; cbn [bind]; try discriminate.
  match goal with |- context [bind ?x _] => destruct x as [otk|e|] end; cbn [bind]; try discriminate.
  intros H; injection H as <- <-. right. exists spk', otk. eexists. split; [reflexivity|]. split; reflexivity.
Qed.

Lemma build_recv_fail C w rid r m q l : BuildReceiverSession C w rid r m = (q, l) ->
  (forall v, q <> Ok v) -> l = [].
Proof.
  unfold BuildReceiverSession. destruct (negb _); [congruence|]. destruct (negb _); [congruence|].
  destruct (hasSessionState _ _ _).
  { intros H Hn. injection H as <- <-. reflexivity. }
  destruct (bind _ _) as [v|e|]; intros H Hn; injection H as <- <-; auto. exfalso. now apply (Hn v).
Qed.

Lemma call_small C w c k : small_world w -> small_world (apply_effs w (firstn k (snd (perform_call C w c)))).
Proof.
  intros H. destruct c as [rid dev pt|rid dev ty b rnd|rid dev b rbase rratchet]; cbn [perform_call].
  - unfold SessionEncryptMessage. pose proof (load_small w rid dev H) as L.
    unfold ss_encrypt. destruct (s_sender (r_cur (LoadSession w rid dev))) as [sc|]; [|destruct k; exact H].
    destruct (load_ck (ch_ck sc)) as [c|e|]; cbn [bind]; try (destruct k; exact H).
    destruct (key32 (ch_rpub sc)) as [rk|e|]; cbn [bind]; try (destruct k; exact H).
    destruct (Encrypt _ _ _ _) as [ct|e|]; cbn [bind]; try (destruct k; exact H).
    destruct (key32 (s_local _)) as [loc|e|]; cbn [bind]; try (destruct k; exact H).
    destruct (key32 (s_remote _)) as [rem|e|]; cbn [bind]; try (destruct k; exact H).
    destruct L as [L1 L2]. inversion L1 as [|? ? Lc Lp]; subst.
    assert (G : forall n, small_world (set_sess w rid dev (Some
       (with_sender (r_cur (LoadSession w rid dev)) (Some (mkChain (ch_rpub sc) (ch_rpriv sc) (Some (getNextChainKey C n)) (ch_mks sc))),
        r_prevs (LoadSession w rid dev))))).
    { intros n. apply set_sess_small; auto. split; auto. }
    destruct (s_pending _) as [p|].
    + destruct (key_unser (pp_base p)) as [base|e|]; cbn [bind]; try (destruct k; exact H).
      destruct k as [|[|k]]; [exact H|apply G|apply G].
    + destruct k as [|[|k]]; [exact H|apply G|apply G].
  - assert (N : small_world (apply_effs w (firstn k []))) by (destruct k; exact H).
    pose proof (load_small w rid dev H) as L. destruct ty; cbn [receive].
    + destruct (LoadWhisperMessage b) as [m|e|]; try exact N.
      unfold SessionDecryptWhisperMessage.
      destruct (sc_decrypt C (LoadSession w rid dev) m rnd) as [[pt|e|] r'] eqn:D; try exact N.
      destruct k as [|[|k]]; [exact H| |]; cbn [snd firstn]; apply set_sess_small; auto; eapply sc_decrypt_small; eauto.
    + destruct (LoadPreKeyWhisperMessage b) as [m|e|]; try exact N.
      unfold SessionDecryptPreKeyWhisperMessage.
      destruct (BuildReceiverSession C w rid (LoadSession w rid dev) m) as [[[pkid r1]|e|] l1] eqn:B.
      2:{ apply build_recv_fail in B; [|congruence]. subst. exact N. }
      2:{ apply build_recv_fail in B; [|congruence]. subst. exact N. }
      assert (B' : small_record (r_cur r1) (r_prevs r1) /\ (l1 = [] \/ l1 = [ESaveIdentity rid (pk_ident m)])).
      { apply build_recv_inv in B. destruct B as [(E & -> & _)|(spk & otk & r2 & -> & E2 & E)].
        - injection E as -> ->. auto.
        - injection E as -> ->. split; auto. cbn [r_cur r_prevs].
          pose proof (archive_small _ L) as A. cbv zeta in A. rewrite <- E2 in A. destruct A as [A1 A2].
          inversion A1 as [|? ? Ac Ap]; subst x l. split; auto. }
      destruct B' as [S1 El].
      assert (NS : forall l, Forall (fun e => match e with EStoreSession _ _ _ _ => False | _ => True end) l ->
         forall w0, small_world w0 -> small_world (apply_effs w0 l)).
      { intros l. induction l as [|e l IH]; intros F w0 H0; [exact H0|]. inversion F as [|? ? F1 F2]; subst.
        cbn [apply_effs fold_left]. apply IH; auto. destruct e; [destruct F1| |]; exact H0. }
      assert (NS1 : Forall (fun e => match e with EStoreSession _ _ _ _ => False | _ => True end) l1).
      { destruct El as [->| ->]; repeat constructor. }
      assert (FN : forall (P : eff -> Prop) n l, Forall P l -> Forall P (firstn n l)).
      { intros P n l. revert n. induction l as [|x l IH]; intros [|n] F; cbn [firstn]; auto.
        inversion F; subst. constructor; auto. }
      destruct (sc_decrypt C r1 (pk_msg m) rnd) as [[pt|e|] r'] eqn:D.
      2:{ cbn [snd]. apply NS; auto. }
      2:{ cbn [snd]. apply NS; auto. }
      cbn [snd]. rewrite app_assoc.
      set (pre := l1 ++ (if pkid =? 16777215 then [] else [ERemovePreKey pkid])).
      assert (NP : Forall (fun e => match e with EStoreSession _ _ _ _ => False | _ => True end) pre).
      { unfold pre. apply Forall_app. split; auto. destruct (pkid =? _); repeat constructor. }
      rewrite firstn_app. unfold apply_effs. rewrite fold_left_app. fold (apply_effs w (firstn k pre)).
      assert (W1 : small_world (apply_effs w (firstn k pre))) by (apply NS; auto).
      destruct (k - length pre)%nat as [|n]; [exact W1|]. cbn [firstn].
      destruct n; cbn [firstn fold_left apply_eff StoreSession]; apply set_sess_small; auto; eapply sc_decrypt_small; eauto.
  - unfold BuildSenderSession.
    destruct (negb _); [destruct k; exact H|]. destruct (b_spk b) as [spk|].
    2:{ destruct k; exact H. }
    destruct (negb _); [destruct k; exact H|].
    pose proof (archive_small _ (load_small w rid dev H)) as A. cbv zeta in A.
    set (r1 := if r_fresh (LoadSession w rid dev) then LoadSession w rid dev else archiveCurrentState (LoadSession w rid dev)) in *.
    destruct A as [A1 A2]. inversion A1 as [|? ? Ac Ap]; subst x l.
    assert (G : small_world (set_sess w rid dev (Some (with_regs (with_pending (initializeSenderSession C (r_cur r1) (snd (w_ident w)) (fst (w_ident w)) (clamp rbase)
                (b_ident b) spk (b_pk b) rratchet) (Some (mkPending (b_pkid b) (b_spkid b) (key_ser (basepub C (clamp rbase)))))) (b_reg b) (w_reg w) (key_ser (basepub C (clamp rbase))), r_prevs r1)))).
    { apply set_sess_small; auto. split; auto. constructor; auto.
      unfold small_state, initializeSenderSession in *. cbv zeta.
      destruct (calculateDerivedKeys C _) as [root0 ck0]. destruct (createChain C root0 spk _) as [root1 sck].
      cbn [with_regs with_pending with_root with_sender with_recv s_recv with_ids]. apply addReceiverChain_small. exact Ac. }
    destruct k as [|[|[|k]]]; [exact H|exact G|exact G|exact G].
Qed.

Theorem small_history C h w : small_world w -> small_world (fst (history C w h)).
Proof. apply (history_inv C small_world). intros. now apply call_small. Qed.

(* ---- what a call does to the sessions ---- *)
Definition peer_of (c : call) : bytes * Z :=
  match c with CEnc r d _ | CRecv r d _ _ _ | CBuild r d _ _ _ => (r, d) end.

Definition no_store (e : eff) : Prop := match e with EStoreSession _ _ _ _ => False | _ => True end.

Lemma no_store_sess l : Forall no_store l -> forall w rid dev, w_sess (apply_effs w l) rid dev = w_sess w rid dev.
Proof.
  induction l as [|e l IH]; intros F w rid dev; [reflexivity|]. inversion F as [|? ? F1 F2]; subst.
  cbn [apply_effs fold_left]. fold (apply_effs (apply_eff w e) l). rewrite IH by auto.
  destruct e; [destruct F1| |]; reflexivity.
Qed.

Lemma Forall_firstn {A} (P : A -> Prop) n l : Forall P l -> Forall P (firstn n l).
Proof.
  revert n. induction l as [|x l IH]; intros [|n] F; cbn [firstn]; auto. inversion F; subst. constructor; auto.
Qed.

(* the record on which the decryption of a received message runs *)
Definition opened (C : crypto) (w : world) (rid : bytes) (dev : Z) (ty : mtype) (b : bytes) (m : wmsg) (r1 : srecord) : Prop :=
  match ty with
  | CIPHERTEXT => LoadWhisperMessage b = Ok m /\ r1 = LoadSession w rid dev
  | PREKEY_BUNDLE => exists pm pkid l, LoadPreKeyWhisperMessage b = Ok pm /\ m = pk_msg pm /\
       BuildReceiverSession C w rid (LoadSession w rid dev) pm = (Ok (pkid, r1), l)
  end.

(* the session a call writes, if it writes one *)
Inductive writes (C : crypto) (w : world) : call -> sstate -> list sstate -> Prop :=
| wr_enc rid dev pt b ty s' :
    ss_encrypt C (r_cur (LoadSession w rid dev)) pt = Ok (b, ty, s') ->
    writes C w (CEnc rid dev pt) s' (r_prevs (LoadSession w rid dev))
| wr_recv rid dev ty b rnd m r1 pt r' :
    opened C w rid dev ty b m r1 -> sc_decrypt C r1 m rnd = (Ok pt, r') ->
    fst (receive C w rid dev ty b rnd) = Ok pt ->
    writes C w (CRecv rid dev ty b rnd) (r_cur r') (r_prevs r')
| wr_build rid dev b rbase rratchet spk r1 :
    b_spk b = Some spk ->
    r1 = (if r_fresh (LoadSession w rid dev) then LoadSession w rid dev else archiveCurrentState (LoadSession w rid dev)) ->
    writes C w (CBuild rid dev b rbase rratchet)
      (with_regs (with_pending (initializeSenderSession C (r_cur r1) (snd (w_ident w)) (fst (w_ident w)) (clamp rbase)
                (b_ident b) spk (b_pk b) rratchet) (Some (mkPending (b_pkid b) (b_spkid b) (key_ser (basepub C (clamp rbase))))))
         (b_reg b) (w_reg w) (key_ser (basepub C (clamp rbase)))) (r_prevs r1).

Lemma firstn_1 {A} k (x : A) : firstn k [x] = [] \/ firstn k [x] = [x].
Proof. destruct k as [|[|k]]; auto. Qed.

Lemma call_sessions C w c k : forall rid dev,
  w_sess (apply_effs w (firstn k (snd (perform_call C w c)))) rid dev = w_sess w rid dev \/
  (peer_of c = (rid, dev) /\ exists s p, writes C w c s p /\
     w_sess (apply_effs w (firstn k (snd (perform_call C w c)))) rid dev = Some (s, p)).
Proof.
  intros rid0 dev0.
  assert (SET : forall w0 r d s p, (forall a b, w_sess w0 a b = w_sess w a b) ->
     w_sess (set_sess w0 r d (Some (s, p))) rid0 dev0 = w_sess w rid0 dev0 \/
     ((r, d) = (rid0, dev0) /\ w_sess (set_sess w0 r d (Some (s, p))) rid0 dev0 = Some (s, p))).
  { intros w0 r d s p H0. cbn [set_sess w_sess]. destruct (beq rid0 r) eqn:B; cbn [andb]; [|left; apply H0].
    apply beq_eq in B. destruct (Z.eqb_spec dev0 d); [|left; apply H0]. right. subst. auto. }
  assert (N : w_sess (apply_effs w (firstn k [])) rid0 dev0 = w_sess w rid0 dev0) by (destruct k; reflexivity).
  destruct c as [rid dev pt|rid dev ty b rnd|rid dev b rbase rratchet]; cbn [perform_call peer_of].
  - unfold SessionEncryptMessage.
    destruct (ss_encrypt C (r_cur (LoadSession w rid dev)) pt) as [[[b ty] s']|e|] eqn:E; cbn [snd]; try (left; exact N).
    destruct (firstn_1 k (EStoreSession rid dev s' (r_prevs (LoadSession w rid dev)))) as [->| ->]; [left; reflexivity|].
    cbn [apply_effs fold_left apply_eff]. destruct (SET w rid dev s' (r_prevs (LoadSession w rid dev))) as [->|[-> ->]]; auto.
    right. split; auto. exists s', (r_prevs (LoadSession w rid dev)). split; auto. econstructor; eauto.
  - destruct (receive C w rid dev ty b rnd) as [r l] eqn:R. cbn [snd].
    assert (G : (exists pre m r1 pt r', r = Ok pt /\ Forall no_store pre /\ l = pre ++ [StoreSession rid dev r'] /\
        opened C w rid dev ty b m r1 /\ sc_decrypt C r1 m rnd = (Ok pt, r')) \/ Forall no_store l).
    { destruct ty; cbn [receive opened] in *.
      - destruct (LoadWhisperMessage b) as [m|e|] eqn:L; try (injection R as <- <-; right; constructor).
        unfold SessionDecryptWhisperMessage in R.
        destruct (sc_decrypt C (LoadSession w rid dev) m rnd) as [[pt|e|] r'] eqn:D; injection R as <- <-; try (right; solve [constructor]).
        left. exists [], m, (LoadSession w rid dev), pt, r'. repeat split; auto.
      - destruct (LoadPreKeyWhisperMessage b) as [pm|e|] eqn:L; try (injection R as <- <-; right; constructor).
        unfold SessionDecryptPreKeyWhisperMessage in R.
        destruct (BuildReceiverSession C w rid (LoadSession w rid dev) pm) as [[[pkid r1]|e|] l1] eqn:B.
        2:{ apply build_recv_fail in B; [|congruence]. subst. injection R as <- <-. right; constructor. }
        2:{ apply build_recv_fail in B; [|congruence]. subst. injection R as <- <-. right; constructor. }
        assert (F1 : Forall no_store l1).
        { destruct (build_recv_inv _ _ _ _ _ _ _ B) as [(_ & -> & _)|(spk & otk & r2 & -> & _)]; repeat constructor. }
        destruct (sc_decrypt C r1 (pk_msg pm) rnd) as [[pt|e|] r'] eqn:D; injection R as <- <-; auto.
        left. exists (l1 ++ (if pkid =? 16777215 then [] else [ERemovePreKey pkid])), (pk_msg pm), r1, pt, r'.
        split; auto. split.
        { apply Forall_app. split; auto. destruct (_ =? _); repeat constructor. }
        split; [now rewrite app_assoc|]. split; auto. exists pm, pkid, l1. auto. }
    destruct G as [(pre & m & r1 & pt & r' & -> & F & -> & O & D)|F].
    2:{ left. apply no_store_sess. now apply Forall_firstn. }
    rewrite firstn_app. unfold apply_effs. rewrite fold_left_app. fold (apply_effs w (firstn k pre)).
    assert (W0 : forall a d, w_sess (apply_effs w (firstn k pre)) a d = w_sess w a d).
    { intros. apply no_store_sess. now apply Forall_firstn. }
    destruct (firstn_1 (k - length pre) (StoreSession rid dev r')) as [->| ->]; [left; apply W0|].
    cbn [fold_left apply_eff StoreSession].
    destruct (SET (apply_effs w (firstn k pre)) rid dev (r_cur r') (r_prevs r') W0) as [->|[E ->]]; auto.
    right. split; auto. exists (r_cur r'), (r_prevs r'). split; auto. econstructor; eauto. now rewrite R.
  - unfold BuildSenderSession.
    destruct (negb _); [left; exact N|]. destruct (b_spk b) as [spk|] eqn:ES; [|left; exact N].
    destruct (negb _); [left; exact N|]. cbn [snd].
    set (r1 := if r_fresh (LoadSession w rid dev) then LoadSession w rid dev else archiveCurrentState (LoadSession w rid dev)).
    set (s3 := with_regs _ _ _ _).
    assert (G : w_sess (set_sess w rid dev (Some (s3, r_prevs r1))) rid0 dev0 = w_sess w rid0 dev0 \/
      ((rid, dev) = (rid0, dev0) /\ exists s p, writes C w (CBuild rid dev b rbase rratchet) s p /\
        w_sess (set_sess w rid dev (Some (s3, r_prevs r1))) rid0 dev0 = Some (s, p))).
    { destruct (SET w rid dev s3 (r_prevs r1)) as [E|[E E2]]; auto. right. split; auto.
      exists s3, (r_prevs r1). split; auto. unfold s3. eapply wr_build; eauto. }
    destruct k as [|[|[|k]]]; [left; reflexivity|exact G|exact G|exact G].
Qed.

(* ---- C16 ---- *)
Definition pinned (rid k : bytes) (w : world) : Prop := w_trust_all w = false /\ w_ids w rid = Some k.

Lemma saves_trusted C w c :
  Forall (fun e => match e with ESaveIdentity r key => IsTrustedIdentity w r key = true | _ => True end)
    (snd (perform_call C w c)).
Proof.
  destruct c as [rid dev pt|rid dev ty b rnd|rid dev b rbase rratchet]; cbn [perform_call].
  - unfold SessionEncryptMessage. destruct (ss_encrypt _ _ _) as [[[b ty] s']|e|]; repeat constructor.
  - destruct ty; cbn [receive].
    + destruct (LoadWhisperMessage b) as [m|e|]; try constructor. unfold SessionDecryptWhisperMessage.
      destruct (sc_decrypt _ _ _ _) as [[pt|e|] r']; repeat constructor.
    + destruct (LoadPreKeyWhisperMessage b) as [m|e|]; try constructor.
      unfold SessionDecryptPreKeyWhisperMessage.
      destruct (BuildReceiverSession C w rid (LoadSession w rid dev) m) as [q l1] eqn:B.
      assert (F : Forall (fun e => match e with ESaveIdentity r key => IsTrustedIdentity w r key = true | _ => True end) l1).
      { revert B. unfold BuildReceiverSession. destruct (negb (pk_version m =? _)); [intros H; injection H as <- <-; constructor|].
        destruct (IsTrustedIdentity w rid (pk_ident m)) eqn:T; cbn [negb]; [|intros H; injection H as <- <-; constructor].
        destruct (hasSessionState _ _ _); [intros H; injection H as <- <-; constructor|].
        destruct (bind _ _); intros H; injection H as <- <-; repeat constructor; auto. }
      destruct q as [[pkid r1]|e|]; auto.
      destruct (sc_decrypt _ _ _ _) as [[pt|e|] r']; auto. cbn [snd].
      apply Forall_app. split; auto. apply Forall_app. split; [|repeat constructor].
      destruct (_ =? _); repeat constructor.
  - unfold BuildSenderSession. destruct (IsTrustedIdentity w rid (b_ident b)) eqn:T; cbn [negb]; [|constructor].
    destruct (b_spk b) as [spk|]; [|constructor]. destruct (negb _); [constructor|].
    cbn [snd]. repeat constructor. exact T.
Qed.

Lemma call_pinned C rid k w c n : pinned rid k w -> pinned rid k (apply_effs w (firstn n (snd (perform_call C w c)))).
Proof.
  intros [H1 H2]. pose proof (saves_trusted C w c) as F. apply (Forall_firstn _ n) in F.
  assert (G : Forall (fun e => match e with ESaveIdentity r key => r = rid -> key = k | _ => True end)
     (firstn n (snd (perform_call C w c)))).
  { eapply Forall_impl; [|exact F]. intros [| |r key]; auto. unfold IsTrustedIdentity. rewrite H1. cbn [orb].
    intros T ->. rewrite H2 in T. now apply beq_eq in T. }
  clear F. revert G. generalize (firstn n (snd (perform_call C w c))). intros l. revert w H1 H2.
  induction l as [|e l IH]; intros w H1 H2 G; [now split|]. inversion G as [|? ? G1 G2]; subst.
  cbn [apply_effs fold_left]. apply IH; auto; destruct e as [| |r key]; cbn [apply_eff set_sess set_pre set_id w_trust_all w_ids]; auto.
  destruct (beq rid r) eqn:B; auto. apply beq_eq in B. now rewrite G1.
Qed.

Theorem pinned_history C rid k h w : pinned rid k w -> pinned rid k (fst (history C w h)).
Proof. apply (history_inv C (pinned rid k)). intros. now apply call_pinned. Qed.

(* ---- C08, C09: positions of sent messages ---- *)
Lemma ss_encrypt_inv C s pt b ty s' : ss_encrypt C s pt = Ok (b, ty, s') ->
  exists sc c ct,
    s_sender s = Some sc /\ ch_ck sc = Some c /\ length (ch_rpub sc) = 32%nat /\
    length (s_local s) = 32%nat /\ length (s_remote s) = 32%nat /\
    Encrypt C (mk_cipher (getMessageKeys C c)) (mk_iv (getMessageKeys C c)) pt = Ok ct /\
    s' = with_sender s (Some (mkChain (ch_rpub sc) (ch_rpriv sc) (Some (getNextChainKey C c)) (ch_mks sc))) /\
    let wm := newWhisperMessage C (getSessionVersion s mod 256) (mk_mac (getMessageKeys C c)) (ch_rpub sc)
                (ck_index c) (s_prev s) ct (s_local s) (s_remote s) in
    match s_pending s with
    | None => b = wm_ser wm /\ ty = CIPHERTEXT
    | Some p => exists base, key_unser (pp_base p) = Ok base /\ length base = 32%nat /\ ty = PREKEY_BUNDLE /\
        b = pk_ser (newPreKeyWhisperMessage (getSessionVersion s mod 256) (s_lreg s) (pp_pkid p)
                      (pp_spkid p mod 2 ^ 32) base (s_local s) wm)
    end.
Proof.
  unfold ss_encrypt. destruct (s_sender s) as [sc|]; [|discriminate].
  intros H. apply bind_ok in H. destruct H as (c & H1 & H). apply load_ck_inv in H1. destruct H1 as [H1 _].
  apply bind_ok in H. destruct H as (rk & H2 & H). apply key32_inv in H2. destruct H2 as [-> H2].
  apply bind_ok in H. destruct H as (ct & H3 & H).
  apply bind_ok in H. destruct H as (loc & H4 & H). apply key32_inv in H4. destruct H4 as [-> H4].
  apply bind_ok in H. destruct H as (rem & H5 & H). apply key32_inv in H5. destruct H5 as [-> H5].
  exists sc, c, ct. cbv zeta. destruct (s_pending s) as [p|].
  - apply bind_ok in H. destruct H as (base & H6 & H). injection H as <- <- <-.
    pose proof (key_unser_inv _ _ H6) as (t & _ & H7).
    repeat split; auto. exists base. repeat split; auto.
  - injection H as <- <- <-. repeat split; auto.
Qed.

Lemma cbc_enc_len C key iv bl : crypto_ok C -> aes_key_ok key = true -> length iv = 16%nat ->
  Forall (fun b => length b = 16%nat) bl -> length (concat (cbc_enc C key iv bl)) = (16 * length bl)%nat.
Proof.
  intros OK Hk Hi H. revert iv Hi. induction H as [|b bl Hb Hbl IH]; intros iv Hi; [reflexivity|].
  cbn [cbc_enc concat length]. rewrite app_length.
  assert (L : length (aesE C key (bxor b iv)) = 16%nat).
  { apply (aes_length C OK); auto. rewrite bxor_length. lia. }
  rewrite L, IH by auto. lia.
Qed.

Lemma Encrypt_len C key iv pt ct : crypto_ok C -> Encrypt C key iv pt = Ok ct -> zlen ct <= zlen pt + 16.
Proof.
  intros OK. unfold Encrypt. destruct (aes_key_ok key) eqn:K; cbn [negb]; [|discriminate].
  destruct (Nat.eqb_spec (length iv) 16); cbn [negb]; [|discriminate].
  intros H. injection H as <-.
  pose proof (pkcs_pad_facts pt) as (Hp & Hm & _ & Hl & _). cbv zeta in *.
  pose proof (mul16 _ Hm) as E.
  assert (F : forall k l, length l = (16 * k)%nat -> Forall (fun b => length b = 16%nat) (chunk16 k l)).
  { induction k as [|k IH]; intros l HL; cbn [chunk16]; constructor.
    - rewrite firstn_length. lia.
    - apply IH. rewrite skipn_length. lia. }
  unfold zlen. rewrite cbc_enc_len; auto.
  - unfold blocks. rewrite chunk16_length. lia.
  - unfold blocks. apply F. exact E.
Qed.

Lemma varint_le v : zlen (varint v) <= 10.
Proof.
  unfold varint, zlen. assert (G : forall n w, (length (enc_varint n w) <= n)%nat).
  { induction n as [|n IHn]; intros; cbn [enc_varint]; [reflexivity|]. destruct (w <? 128); cbn [length]; [lia|].
    specialize (IHn (w / 128)). lia. }
  specialize (G 10%nat v). lia.
Qed.

Lemma whisper_len C mac rk ctr prev ct a b : crypto_ok C -> length rk = 32%nat ->
  zlen (wm_ser (newWhisperMessage C 3 mac rk ctr prev ct a b)) <= zlen ct + 200.
Proof.
  intros OK Hk. unfold newWhisperMessage. cbn [wm_ser]. rewrite zlen_app, zlen_cons.
  set (m := getMac _ _ _ _ _ _). assert (Hm : zlen m = 8) by (unfold zlen, m; now rewrite (getMac_length C OK)).
  rewrite Hm. unfold whisper_fields, encode. cbn [flat_map]. unfold enc_field. cbn [fst snd enc_val].
  rewrite !zlen_app. change (zlen (@nil Z)) with 0.
  assert (HK : zlen (key_ser rk) = 33) by (unfold zlen, key_ser; cbn [length]; now rewrite Hk).
  rewrite HK.
  repeat match goal with |- context [zlen (varint ?v)] => pose proof (varint_le v); generalize dependent (zlen (varint v)); intros end.
  lia.
Qed.

(* the position of a produced message can be read from its bytes *)
Lemma position_produced C s pt b ty s' sc c : crypto_ok C ->
  ss_encrypt C s pt = Ok (b, ty, s') -> s_sender s = Some sc -> ch_ck sc = Some c ->
  s_version s = 3 -> 0 <= ck_index c < 2 ^ 32 -> 0 <= s_prev s < 2 ^ 32 -> 0 <= s_lreg s < 2 ^ 32 ->
  (forall p, s_pending s = Some p -> 0 <= pp_pkid p < 2 ^ 32) -> zlen pt < 2 ^ 60 ->
  position ty b = Some (ch_rpub sc, ck_index c).
Proof.
  intros OK H Hs Hc Hv Hi Hp Hl Hpp Hz. apply ss_encrypt_inv in H.
  destruct H as (sc' & c' & ct & H1 & H2 & H3 & H4 & H5 & H6 & _ & H7).
  rewrite Hs in H1. injection H1 as <-. rewrite Hc in H2. injection H2 as <-.
  assert (Ev : getSessionVersion s mod 256 = 3) by (unfold getSessionVersion; rewrite Hv; reflexivity).
  rewrite Ev in H7. cbv zeta in H7. apply Encrypt_len in H6; auto.
  set (wm := newWhisperMessage C 3 (mk_mac (getMessageKeys C c)) (ch_rpub sc) (ck_index c) (s_prev s) ct (s_local s) (s_remote s)) in *.
  assert (LW : LoadWhisperMessage (wm_ser wm) = Ok wm).
  { unfold wm. apply (Load_newWhisper C OK); auto. lia. }
  destruct (s_pending s) as [p|] eqn:EP.
  - destruct H7 as (base & _ & Hb & -> & ->). unfold position, newPreKeyWhisperMessage. cbn [pk_ser tl].
    assert (WL : zlen (wm_ser wm) <= zlen ct + 200) by (apply whisper_len; auto).
    rewrite parse_encode.
    + cbn [prekey_fields get_len Z.eqb Pos.eqb]. rewrite LW. reflexivity.
    + specialize (Hpp p eq_refl). pose proof (Z.mod_pos_bound (pp_spkid p) (2 ^ 32) ltac:(lia)).
      unfold prekey_fields. repeat constructor; cbn [fst snd wf_val]; unfold max_field; try lia;
      unfold zlen, key_ser; cbn [length]; rewrite ?Hb, ?H4; unfold zlen in *; lia.
  - destruct H7 as (-> & ->). unfold position. now rewrite LW.
Qed.

Lemma gocmk_lreg C s1 rk c counter r s2 : getOrCreateMessageKeys C s1 rk c counter = (r, s2) -> s_lreg s2 = s_lreg s1.
Proof.
  unfold getOrCreateMessageKeys.
  repeat match goal with |- context [if ?b then _ else _] => destruct b end;
  destruct (find_chain rk (s_recv s1)) as [rc|]; try destruct (take_mk counter (ch_mks rc)) as [[k rest]|];
  try destruct (skip_keys C _ _ _) as [c' mks];
  intros H; injection H as <- <-; reflexivity.
Qed.

(* ratchet keys a call may generate *)
Definition fresh_of (C : crypto) (c : call) : list bytes :=
  match c with
  | CEnc _ _ _ => []
  | CRecv _ _ _ _ rnd => [basepub C (clamp (rnd 0%nat))]
  | CBuild _ _ _ _ rratchet => [basepub C (clamp rratchet)]
  end.

(* a received message that is accepted is accepted by the newest state of the record *)
Definition direct (C : crypto) (w : world) (c : call) : Prop :=
  match c with
  | CRecv rid dev ty b rnd =>
      forall pt m r1, fst (receive C w rid dev ty b rnd) = Ok pt -> opened C w rid dev ty b m r1 ->
      exists pt' s', ss_decrypt C (r_cur r1) m (rnd 0%nat) = (Ok pt', s')
  | _ => True
  end.

Lemma direct_without_archive C w rid dev b rnd :
  r_prevs (LoadSession w rid dev) = [] -> direct C w (CRecv rid dev CIPHERTEXT b rnd).
Proof.
  intros Hp pt m r1 R [L ->]. cbn [receive] in R. rewrite L in R. unfold SessionDecryptWhisperMessage in R.
  unfold sc_decrypt in R. rewrite Hp in R. cbn [try_prevs] in R.
  destruct (ss_decrypt C (r_cur (LoadSession w rid dev)) m (rnd 0%nat)) as [[p|e|] s']; cbn [fst] in R; try discriminate. eauto.
Qed.

(* value ranges of the Go types of the inputs *)
Definition call_typed (c : call) : Prop :=
  match c with
  | CEnc _ _ pt => zlen pt < 2 ^ 60
  | CRecv _ _ _ _ _ => True
  | CBuild _ _ b _ _ => 0 <= b_pkid b < 2 ^ 32
  end.

Section Positions.
Variable C : crypto.
Hypothesis OK : crypto_ok C.
Variables (rid : bytes) (dev : Z).

Definition sinv (U : list bytes) (P : list (bytes * Z)) (n : Z) (s : sstate) : Prop :=
  exists sc c, s_sender s = Some sc /\ ch_ck sc = Some c /\ In (ch_rpub sc) U /\
    0 <= ck_index c <= n /\ (forall ctr, In (ch_rpub sc, ctr) P -> ctr < ck_index c) /\
    s_version s = 3 /\ 0 <= s_prev s < 2 ^ 32 /\ 0 <= s_lreg s < 2 ^ 32 /\
    (forall p, s_pending s = Some p -> 0 <= pp_pkid p < 2 ^ 32).

Record hinv (U : list bytes) (P : list (bytes * Z)) (n : Z) (w : world) : Prop := {
  hi_used : forall rk ctr, In (rk, ctr) P -> In rk U;
  hi_nodup : NoDup P;
  hi_reg : 0 <= w_reg w < 2 ^ 32;
  hi_sess : forall s p, w_sess w rid dev = Some (s, p) -> sinv U P n s }.

Lemma sinv_mono U P n U' n' s : sinv U P n s -> incl U U' -> n <= n' -> sinv U' P n' s.
Proof.
  intros (sc & c & H1 & H2 & H3 & H4 & H5) HU Hn. exists sc, c. destruct H5 as (H5 & H6 & H7 & H8 & H9).
  split; [auto|]. split; [auto|]. split; [auto|]. split; [lia|]. auto.
Qed.

(* a state with a fresh ratchet key *)
Lemma sinv_fresh U P n s s1 sc c pub : (forall rk ctr, In (rk, ctr) P -> In rk U) -> ~ In pub U ->
  s_sender s = Some sc -> ch_rpub sc = pub -> ch_ck sc = Some c -> ck_index c = 0 -> 0 <= n ->
  s_version s = 3 -> 0 <= s_prev s < 2 ^ 32 -> 0 <= s_lreg s < 2 ^ 32 ->
  s_pending s1 = s_pending s \/ s_pending s1 = None ->
  s_sender s1 = s_sender s -> s_version s1 = s_version s -> s_prev s1 = s_prev s -> s_lreg s1 = s_lreg s ->
  (forall p, s_pending s = Some p -> 0 <= pp_pkid p < 2 ^ 32) ->
  sinv (U ++ [pub]) P n s1.
Proof.
  intros HU Hf Hs Hp Hc Hi Hn Hv Hpr Hl Hpend E1 E2 E3 E4 Hpp. exists sc, c.
  rewrite E1, E2, E3, E4. repeat split; auto; try lia.
  - rewrite in_app_iff. right. left. auto.
  - intros ctr Hin. exfalso. apply Hf. rewrite <- Hp. eapply HU; eauto.
  - apply (Hpp p). destruct Hpend as [E|E]; congruence.
  - apply (Hpp p). destruct Hpend as [E|E]; congruence.
Qed.

Lemma ss_decrypt_sinv U P n s m rnd pt s' : sinv U P n s -> n < 2 ^ 32 ->
  (forall rk ctr, In (rk, ctr) P -> In rk U) -> ~ In (basepub C (clamp rnd)) U ->
  ss_decrypt C s m rnd = (Ok pt, s') -> sinv (U ++ [basepub C (clamp rnd)]) P n s'.
Proof.
  intros (sc & c & Hs & Hc & HU & Hi & HP & Hv & Hpr & Hl & Hpp) Hn HPU Hf D.
  destruct (ss_decrypt_cases _ _ _ _ _ _ D) as [(_ & X & _)|(c0 & s1 & rc & G1 & F & Hc0 & _ & H1)].
  { exfalso. now apply (X pt). }
  destruct H1 as [(e & _ & H1 & _)|(mk & s2 & G2 & [(X & _)|(p & H1 & -> & _)])]; [discriminate|exfalso; now apply (X pt)|].
  destruct (gocmk_frame _ _ _ _ _ _ _ G2) as (F1 & F2 & F3 & F4 & F5 & F6 & _ & F7 & F8).
  assert (FL : s_lreg s2 = s_lreg s1).
  { eapply gocmk_lreg; eauto. }
  destruct (gocck_inv _ _ _ _ _ _ G1) as [(rc' & _ & _ & ->)|(sc' & old & _ & Es & Eold & _ & _ & _ & ES & _ & _ & _ & EV & EP & _ & _ & EL)].
  - exists sc, c. cbn [with_pending s_sender s_version s_prev s_lreg s_pending].
    rewrite F5, F3, F7, FL. repeat split; auto; try lia; try discriminate.
    rewrite in_app_iff. auto.
  - rewrite Hs in Es. injection Es as <-. rewrite Hc in Eold. injection Eold as <-.
    destruct (createChain C (fst (createChain C (s_root s) (wm_rkey m) (ch_rpriv sc))) (wm_rkey m) (clamp rnd)) as [root2 sck] eqn:EC.
    cbn [snd] in ES. pose proof (createChain_ok C OK _ _ _ _ _ EC) as (_ & _ & I0).
    apply (sinv_fresh U P n s2 (with_pending s2 None) _ sck _ HPU Hf (eq_trans F5 ES));
      try reflexivity; auto.
    + lia.
    + rewrite F3, EV. exact Hv.
    + rewrite F7. assert (PR : exists q, s_prev s1 = q /\ 0 <= q < 2 ^ 32).
      { destruct (gocck_find _ _ _ _ _ _ G1) as (rc1 & _ & _).
        unfold getOrCreateChainKey in G1. destruct (find_chain (wm_rkey m) (s_recv s)) as [x|] eqn:FF.
        - apply bind_ok in G1. destruct G1 as (a & _ & G1). injection G1 as _ <-. eauto.
        - apply bind_ok in G1. destruct G1 as (a & _ & G1). rewrite Hs in G1.
          apply bind_ok in G1. destruct G1 as (a1 & _ & G1). apply bind_ok in G1. destruct G1 as (a2 & _ & G1).
          destruct (createChain C a (wm_rkey m) a1) as [x1 x2]. destruct (createChain C x1 (wm_rkey m) (clamp rnd)) as [y1 y2].
          apply bind_ok in G1. destruct G1 as (old & HO & G1). injection G1 as _ <-. cbn [with_sender with_prev s_prev].
          apply load_ck_inv in HO. destruct HO as [HO _]. rewrite Hc in HO. injection HO as <-.
          eexists. split; [reflexivity|]. destruct (Z.gtb_spec (ck_index c) 0); lia. }
      destruct PR as (q & -> & PR). exact PR.
    + rewrite FL, EL. exact Hl.
    + intros p0. rewrite F8, EP. apply Hpp.
Qed.

(* a call step *)
Lemma writes_sinv U P n w c s p : hinv U P n w -> 0 <= n < 2 ^ 32 - 1 -> peer_of c = (rid, dev) ->
  writes C w c s p -> direct C w c -> call_typed c -> NoDup (U ++ fresh_of C c) ->
  sinv (U ++ fresh_of C c) P (n + 1) s.
Proof.
  intros I Hn Hp W D T ND.
  destruct W as [r d pt b ty s' E|r d ty b rnd m r1 pt r' O SD R|r d b rbase rratchet spk r1 Eb Er];
    cbn [peer_of] in Hp; injection Hp as -> ->; cbn [fresh_of] in *.
  - unfold LoadSession in *. destruct (w_sess w rid dev) as [[cur prevs]|] eqn:ES; [|discriminate].
    cbn [r_cur] in E. destruct (hi_sess _ _ _ _ I _ _ ES) as (sc & c & Hs & Hc & HU & Hi & HP & Hv & Hpr & Hl & Hpp).
    apply ss_encrypt_inv in E. destruct E as (sc' & c' & ct & H1 & H2 & _ & _ & _ & _ & -> & _).
    rewrite Hs in H1. injection H1 as <-. rewrite Hc in H2. injection H2 as <-.
    rewrite app_nil_r. eexists _, _. cbn [with_sender s_sender s_version s_prev s_lreg s_pending].
    split; [reflexivity|]. cbn [ch_ck ch_rpub]. split; [reflexivity|]. unfold getNextChainKey. cbn [ck_index].
    rewrite Z.mod_small by lia. repeat split; auto; try lia.
    + intros ctr Hin. apply HP in Hin. lia.
    + apply (Hpp p); auto.
    + apply (Hpp p); auto.
  - destruct (D pt m r1 R O) as (pt' & s' & ED).
    unfold sc_decrypt in SD. rewrite ED in SD. injection SD as _ <-. cbn [r_cur].
    assert (FR : ~ In (basepub C (clamp (rnd 0%nat))) U).
    { apply NoDup_remove_2 in ND. rewrite app_nil_r in ND. exact ND. }
    assert (OLD : r_cur r1 = r_cur (LoadSession w rid dev) -> sinv (U ++ [basepub C (clamp (rnd 0%nat))]) P (n + 1) s').
    { intros E. rewrite E in ED. unfold LoadSession in ED. destruct (w_sess w rid dev) as [[cur prevs]|] eqn:ES.
      - cbn [r_cur] in ED. eapply sinv_mono; [eapply ss_decrypt_sinv; eauto| |].
        + eapply (hi_sess _ _ _ _ I); eauto.
        + lia.
        + apply (hi_used _ _ _ _ I).
        + apply incl_refl.
        + lia.
      - cbn in ED. discriminate. }
    destruct ty; cbn [opened] in O.
    + destruct O as [_ ->]. auto.
    + destruct O as (pm & pkid & l & L & Em & B). apply build_recv_inv in B.
      destruct B as [(E & _)|(spk & otk & r2 & _ & E2 & E)].
      { injection E as _ ->. auto. }
      injection E as _ ->. cbn [r_cur] in ED.
      assert (EC : r_cur r2 = empty_ss).
      { rewrite E2. unfold LoadSession. destruct (w_sess w rid dev) as [[cur prevs]|]; reflexivity. }
      rewrite EC in ED. clear OLD.
      (* the new state has no receiving chain, so the first message makes new ones *)
      set (s0 := with_regs _ _ _ _) in ED.
      assert (S0 : exists ck, s_recv s0 = [] /\ s_sender s0 = Some (mkChain (snd spk) (fst spk) (Some ck) []) /\ ck_index ck = 0
         /\ s_version s0 = 3 /\ s_lreg s0 = w_reg w /\ s_pending s0 = None).
      { unfold s0, initializeReceiverSession. cbv zeta. destruct (calculateDerivedKeys C _) as [root0 ck0] eqn:EK.
        apply (calculateDerivedKeys_ok C OK) in EK. exists ck0. cbn. tauto. }
      destruct S0 as (ck & R0 & SS & I0 & V0 & L0 & P0). clearbody s0.
      destruct (ss_decrypt_cases _ _ _ _ _ _ ED) as [(_ & X & _)|(c0 & s1 & rc & G1 & F & Hc0 & _ & H1)].
      { exfalso. now apply (X pt'). }
      destruct H1 as [(e & _ & H1 & _)|(mk & s2 & G2 & [(X & _)|(p & H1 & -> & _)])]; [discriminate|exfalso; now apply (X pt')|].
      destruct (gocmk_frame _ _ _ _ _ _ _ G2) as (F1 & F2 & F3 & F4 & F5 & F6 & _ & F7 & F8).
      assert (FL : s_lreg s2 = s_lreg s1).
      { eapply gocmk_lreg; eauto. }
      pose proof G1 as G1'.
      destruct (gocck_inv _ _ _ _ _ _ G1) as [(rc' & FF & _ & _)|(sc' & old & _ & Es & Eold & _ & _ & _ & ES & _ & _ & _ & EV & EP & _ & _ & EL)].
      { rewrite R0 in FF. discriminate. }
      destruct (createChain C (fst (createChain C (s_root s0) (wm_rkey m) (ch_rpriv sc'))) (wm_rkey m) (clamp (rnd 0%nat))) as [root2 sck] eqn:ECC.
      cbn [snd] in ES. pose proof (createChain_ok C OK _ _ _ _ _ ECC) as (_ & _ & I1).
      apply (sinv_fresh U P (n + 1) s2 (with_pending s2 None) _ sck _ (hi_used _ _ _ _ I) FR (eq_trans F5 ES));
        try reflexivity; auto.
      * lia.
      * rewrite F3, EV. exact V0.
      * rewrite F7. unfold getOrCreateChainKey in G1'. rewrite R0 in G1'. cbn [find_chain] in G1'.
        apply bind_ok in G1'. destruct G1' as (a & _ & G1'). rewrite SS in G1'.
        apply bind_ok in G1'. destruct G1' as (a1 & _ & G1'). apply bind_ok in G1'. destruct G1' as (a2 & _ & G1').
        destruct (createChain C a (wm_rkey m) a1) as [x1 x2]. destruct (createChain C x1 (wm_rkey m) (clamp (rnd 0%nat))) as [y1 y2].
        apply bind_ok in G1'. destruct G1' as (old' & HO & G1'). injection G1' as _ <-. cbn [with_sender with_prev s_prev].
        cbn [ch_ck] in HO. apply load_ck_inv in HO. destruct HO as [HO _]. injection HO as <-. rewrite I0. cbn. lia.
      * rewrite FL, EL, L0. apply (hi_reg _ _ _ _ I).
      * intros p0. rewrite F8, EP, P0. discriminate.
  - assert (FR : ~ In (basepub C (clamp rratchet)) U).
    { apply NoDup_remove_2 in ND. rewrite app_nil_r in ND. exact ND. }
    assert (EC : r_cur r1 = empty_ss).
    { rewrite Er. unfold LoadSession. destruct (w_sess w rid dev) as [[cur prevs]|]; reflexivity. }
    rewrite EC. unfold initializeSenderSession. cbv zeta.
    destruct (calculateDerivedKeys C _) as [root0 ck0]. destruct (createChain C root0 spk (clamp rratchet)) as [root1 sck] eqn:E1.
    pose proof (createChain_ok C OK _ _ _ _ _ E1) as (_ & _ & I1).
    eexists _, _. cbn [with_regs with_pending with_root with_sender with_recv with_ids s_sender s_version s_prev s_lreg s_pending].
    split; [reflexivity|]. cbn [ch_ck ch_rpub]. split; [reflexivity|].
    rewrite I1. cbn [empty_ss s_prev].
    repeat split; try lia.
    + rewrite in_app_iff. right. now left.
    + intros ctr Hin. exfalso. apply FR. eapply (hi_used _ _ _ _ I); eauto.
    + apply (hi_reg _ _ _ _ I).
    + apply (hi_reg _ _ _ _ I).
    + injection H as <-. cbn. apply T.
    + injection H as <-. cbn. apply T.
Qed.

Definition for_peer (x : sent) : bool := beq (se_rid x) rid && (se_dev x =? dev).
Definition positions (l : list sent) : list (option (bytes * Z)) :=
  map (fun x => position (se_type x) (se_bytes x)) (filter for_peer l).

Lemma apply_effs_reg l w : w_reg (apply_effs w l) = w_reg w.
Proof.
  revert w. induction l as [|e l IH]; intros w; [reflexivity|]. cbn [apply_effs fold_left].
  fold (apply_effs (apply_eff w e) l). rewrite IH. now destruct e.
Qed.

Lemma NoDup_app_l {A} (a b : list A) : NoDup (a ++ b) -> NoDup a.
Proof.
  induction a as [|x a IH]; intros H; [constructor|]. cbn [app] in H. inversion H as [|? ? H1 H2]; subst.
  constructor; auto. intros Hin. apply H1. rewrite in_app_iff. auto.
Qed.

Lemma estep_hinv U P n w e w' out : hinv U P n w -> 0 <= n < 2 ^ 32 - 1 ->
  direct C w (ecall e) -> call_typed (ecall e) -> NoDup (U ++ fresh_of C (ecall e)) ->
  estep C w e = (w', out) ->
  exists P', positions out = map Some P' /\ hinv (U ++ fresh_of C (ecall e)) (P ++ P') (n + 1) w'.
Proof.
  intros I Hn D T ND E.
  assert (G : exists k, w' = apply_effs w (firstn k (snd (perform_call C w (ecall e)))) /\
     out = match e with Done c => snd (fst (perform_call C w c)) | Crash _ _ => [] end).
  { destruct e as [c|c k]; cbn [estep ecall] in *; destruct (perform_call C w c) as [[b o] l]; injection E as <- <-.
    - exists (length l). cbn [snd fst]. now rewrite firstn_all.
    - exists k. auto. }
  destruct G as (k & -> & Eo).
  set (c := ecall e) in *.
  assert (IU : incl U (U ++ fresh_of C c)) by (intros x Hx; rewrite in_app_iff; auto).
  (* without a message handed out *)
  assert (SILENT : hinv (U ++ fresh_of C c) P (n + 1) (apply_effs w (firstn k (snd (perform_call C w c))))).
  { constructor.
    - intros rk ctr Hin. apply IU. eapply (hi_used _ _ _ _ I); eauto.
    - apply (hi_nodup _ _ _ _ I).
    - rewrite apply_effs_reg. apply (hi_reg _ _ _ _ I).
    - intros s p HS. destruct (call_sessions C w c k rid dev) as [X|(Hp & s1 & p1 & W & X)]; rewrite X in HS.
      + eapply sinv_mono; [eapply (hi_sess _ _ _ _ I); eauto|auto|lia].
      + injection HS as <- <-. eapply writes_sinv; eauto. }
  (* which calls hand out a message *)
  destruct e as [c0|c0 k0]; cbn [ecall] in c; subst c.
  2:{ exists []. subst out. split; [reflexivity|]. rewrite app_nil_r. exact SILENT. }
  destruct c0 as [r d pt|r d ty b rnd|r d b rbase rratchet].
  2:{ exists []. rewrite app_nil_r. split; [|exact SILENT].
      subst out. cbn [perform_call]. now destruct (receive C w r d ty b rnd). }
  2:{ exists []. rewrite app_nil_r. split; [|exact SILENT].
      subst out. cbn [perform_call]. now destruct (BuildSenderSession C w r d b rbase rratchet). }
  cbn [estep perform_call fresh_of] in *. rewrite app_nil_r in *.
  destruct (SessionEncryptMessage C w r d pt) as [[[b ty]|e|] l] eqn:EE;
    try (exists []; subst out; split; [reflexivity|]; rewrite app_nil_r; exact SILENT).
  cbn [fst snd] in *. assert (out = [mkSent r d ty b]) as -> by congruence.
  assert (EW : apply_effs w (firstn k l) = apply_effs w l) by congruence. rewrite EW in *.
  unfold positions. cbn [filter]. unfold for_peer. cbn [se_rid se_dev].
  destruct (beq r rid && (d =? dev)) eqn:B.
  2:{ exists []. split; [reflexivity|]. rewrite app_nil_r. exact SILENT. }
  apply andb_true_iff in B. destruct B as [B1 B2]. apply beq_eq in B1. apply Z.eqb_eq in B2. subst r d.
  unfold SessionEncryptMessage, LoadSession in EE. destruct (w_sess w rid dev) as [[cur prevs]|] eqn:ES; [|discriminate].
  cbn [r_cur r_prevs] in EE. destruct (ss_encrypt C cur pt) as [[[b' ty'] s']|e|] eqn:SE; try discriminate.
  injection EE as -> -> <-.
  destruct (hi_sess _ _ _ _ I _ _ ES) as (sc & c & Hs & Hc & HU & Hi & HP & Hv & Hpr & Hl & Hpp).
  assert (POS : position ty b = Some (ch_rpub sc, ck_index c)).
  { eapply position_produced; eauto. lia. }
  exists [(ch_rpub sc, ck_index c)]. cbn [map se_type se_bytes]. rewrite POS. split; [reflexivity|].
  constructor.
  - intros rk ctr. rewrite in_app_iff. intros [H|[H|[]]]; [eapply (hi_used _ _ _ _ I); eauto|].
    injection H as <- <-. exact HU.
  - apply NoDup_rev in ND. clear ND.
    assert (NI : ~ In (ch_rpub sc, ck_index c) P) by (intros H; apply HP in H; lia).
    pose proof (hi_nodup _ _ _ _ I) as NP. clear - NI NP. induction P as [|x P IH]; cbn [app].
    + constructor; [intros []|constructor].
    + inversion NP as [|? ? N1 N2]; subst. constructor.
      * rewrite in_app_iff. intros [H|[H|[]]]; [auto|]. apply NI. left. auto.
      * apply IH; auto. intros H. apply NI. now right.
  - rewrite apply_effs_reg. apply (hi_reg _ _ _ _ I).
  - intros s p. cbn [apply_effs fold_left apply_eff set_sess w_sess]. rewrite beq_refl, Z.eqb_refl. cbn [andb].
    intros H. injection H as <- _.
    apply ss_encrypt_inv in SE. destruct SE as (sc' & c' & ct & H1 & H2 & _ & _ & _ & _ & -> & _).
    rewrite Hs in H1. injection H1 as <-. rewrite Hc in H2. injection H2 as <-.
    eexists _, _. cbn [with_sender s_sender s_version s_prev s_lreg s_pending].
    split; [reflexivity|]. cbn [ch_ck ch_rpub]. split; [reflexivity|]. unfold getNextChainKey. cbn [ck_index].
    rewrite Z.mod_small by lia. repeat split; auto; try lia.
    + intros ctr. rewrite in_app_iff. intros [H|[H|[]]]; [apply HP in H; lia|]. injection H as <-. lia.
    + apply (Hpp p0); auto.
    + apply (Hpp p0); auto.
Qed.

Fixpoint direct_history (w : world) (h : list event) : Prop :=
  match h with
  | [] => True
  | e :: t => direct C w (ecall e) /\ direct_history (fst (estep C w e)) t
  end.

Theorem positions_distinct h : forall U P n w, hinv U P n w -> 0 <= n -> n + Z.of_nat (length h) < 2 ^ 32 ->
  direct_history w h -> Forall (fun e => call_typed (ecall e)) h ->
  NoDup (U ++ flat_map (fun e => fresh_of C (ecall e)) h) ->
  exists P', positions (snd (history C w h)) = map Some P' /\ NoDup (P ++ P').
Proof.
  induction h as [|e h IH]; intros U P n w I Hn Hl D T ND.
  - exists []. split; [reflexivity|]. rewrite app_nil_r. apply (hi_nodup _ _ _ _ I).
  - cbn [history]. destruct (estep C w e) as [w1 out] eqn:E. destruct (history C w1 h) as [w2 outs] eqn:EH. cbn [snd].
    cbn [direct_history] in D. rewrite E in D. cbn [fst] in D. destruct D as [D1 D2].
    inversion T as [|? ? T1 T2]; subst. cbn [flat_map] in ND. rewrite app_assoc in ND.
    cbn [length] in Hl.
    destruct (estep_hinv U P n w e w1 out) as (P1 & EP1 & I1); auto; try lia.
    { eapply NoDup_app_l; eauto. }
    destruct (IH _ _ _ _ I1) as (P2 & EP2 & N2); auto; try lia.
    rewrite EH in EP2. cbn [snd] in EP2.
    exists (P1 ++ P2). split.
    + unfold positions in *. rewrite filter_app, !map_app. congruence.
    + now rewrite app_assoc.
Qed.
End Positions.
