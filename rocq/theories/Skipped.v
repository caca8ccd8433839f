(* How many skipped message keys the receiver keeps: a consequence of the conversation invariant. *)
From Coq Require Import ZArith List Lia Bool Permutation.
From Verif Require Import Bytes Res Wire Crypto Cbc Messages Session Builder SessionProofs SessionFacts Conversation
  ConversationProofs InOrder.
Import ListNotations.
Open Scope Z_scope.

Lemma count_split (n : nat) (a b : list nat) : NoDup a -> NoDup b ->
  (forall i, In i b -> (i < n)%nat) -> (forall i, In i a <-> (i < n)%nat /\ ~ In i b) ->
  (length a + length b = n)%nat.
Proof.
  intros Ha Hb Hn H. rewrite <- app_length.
  assert (P : Permutation (a ++ b) (seq 0 n)).
  { apply NoDup_Permutation.
    - induction Ha as [|x a Hx Ha IH] in H |- *; cbn [app]; auto.
      clear IH. assert (G : forall l, NoDup l -> (forall i, In i l -> ~ In i b) -> NoDup (l ++ b)).
      { intros l Hl. induction Hl as [|y l Hy Hl IH]; intros HB; cbn [app]; auto. constructor.
        - rewrite in_app_iff. intros [?|?]; auto. eapply HB; [now left|auto].
        - apply IH. intros i Hi. apply HB. now right. }
      apply (G (x :: a)); [now constructor|]. intros i Hi. now apply H.
    - apply seq_NoDup.
    - intros i. rewrite in_app_iff, in_seq, H. split; [intros [[? ?]|Hi]; [lia|apply Hn in Hi; lia]|].
      intros [_ Hi]. destruct (in_dec Nat.eq_dec i b); auto. }
  rewrite (Permutation_length P). apply seq_length.
Qed.

Lemma reach_bound l i : In i l -> (i < reach l)%nat.
Proof.
  unfold reach. induction l as [|x l IH]; [intros []|]. cbn [map].
  change (list_max (?a :: ?l)) with (Nat.max a (list_max l)). intros [->|H]; [lia|]. apply IH in H. lia.
Qed.

Section S.
Variable C : crypto.
Hypothesis OK : crypto_ok C.
Variable st : setup.
Hypothesis SO : setup_ok C st.

Lemma run_inv acts : forall eps y sp rest, Inv C st eps y sp (acts ++ rest) ->
  admissible C st y sp acts -> exists eps', Inv C st eps' (run C st y acts) (spec_run sp acts) rest.
Proof.
  induction acts as [|a acts IH]; intros eps y sp rest I HA; [eauto|].
  destruct HA as [H1 H2]. cbn [app] in I. destruct (any_step C OK st SO _ _ _ _ _ I H1) as [_ (eps' & I')].
  eapply IH; eauto.
Qed.

(* the session B keeps for A *)
Definition b_session (y : sys) : option (sstate * list sstate) :=
  w_sess (y_w y SB) (fst (st_peer st SB)) (snd (st_peer st SB)).

Lemma kept_keys pts (arr : list (nat * (nat -> bytes))) :
  Forall (fun pt => wfb pt /\ zlen pt < 2 ^ 60) pts ->
  Forall (fun a => length (snd a 0%nat) = 32%nat) arr -> arr <> [] ->
  order_ok (length pts) (map fst arr) ->
  Z.of_nat (length pts + length arr) < 2 ^ 32 ->
  NoDup (basepub C (st_spk st) :: basepub C (clamp (st_rratchet st))
         :: map (fun a => basepub C (clamp (snd a 0%nat))) arr) ->
  exists s p, b_session (run C st (start C st) (sends pts ++ arrivals arr)) = Some (s, p) /\
    length (s_recv s) = 1%nat /\ (nkeys s + length arr = reach (map fst arr))%nat.
Proof.
  intros HP HA HE HO HL HN.
  assert (HG : good_schedule C st (sends pts ++ arrivals arr)).
  { split.
    - unfold sends, arrivals. rewrite app_length, !map_length. exact HL.
    - rewrite flat_map_app. replace (flat_map (fresh_pub C) (sends pts)) with (@nil bytes).
      2: { clear. induction pts; simpl; auto. }
      cbn [app]. replace (flat_map (fresh_pub C) (arrivals arr))
        with (map (fun a : nat * (nat -> bytes) => basepub C (clamp (snd a 0%nat))) arr); [exact HN|].
      clear. induction arr as [|a arr IH]; simpl; auto. now rewrite IH. }
  assert (HAd : admissible C st (start C st) spec0 (sends pts ++ arrivals arr)).
  { apply admissible_sends; auto. { cbn. lia. }
    intros y'. apply (admissible_arrivals C st pts arr []); auto. apply mid0. }
  destruct (start_inv C OK st SO _ HG) as (eps & I).
  assert (I0 : Inv C st eps (start C st) spec0 ((sends pts ++ arrivals arr) ++ [])) by (rewrite app_nil_r; exact I).
  destruct (run_inv (sends pts ++ arrivals arr) eps _ _ [] I0 HAd) as (eps' & I').
  set (y := run C st _ _) in *.
  assert (M : mid pts (map fst arr) (spec_run spec0 (sends pts ++ arrivals arr))).
  { rewrite spec_run_app. apply (mid_run pts arr []); [apply mid0|exact HO]. }
  set (sp := spec_run spec0 _) in *.
  pose proof (iv_sess _ _ _ _ _ _ I' SB) as HS. unfold sess_ok in HS. rewrite (md_b _ _ _ M) in HS.
  destruct arr as [|a arr]; [congruence|]. cbn [map] in HS.
  destruct HS as (s & p & HS & _ & Hst). exists s, p. split; [exact HS|].
  pose proof (so_recv _ _ _ _ _ _ _ _ _ Hst) as F.
  assert (W : win 2 = [1%nat]) by reflexivity. rewrite W in F.
  unfold nkeys. destruct (s_recv s) as [|c [|c2 l]]; [inversion F| |].
  2: { inversion F as [|? ? ? ? _ F2]; subst. inversion F2. }
  inversion F as [|? ? ? ? HC F2]; subst. clear F F2. split; [reflexivity|].
  destruct HC as [_ [HC _]]. destruct (HC ltac:(lia)) as (_ & sk & Hm & Hd & Hi).
  cbn [fold_right]. rewrite Hm. unfold mks_of. rewrite map_length.
  rewrite (md_next _ _ _ M) in Hi. rewrite Nat.add_0_r.
  destruct HO as (O1 & O2 & O3).
  replace (length (a :: arr)) with (length (map fst (a :: arr))) by apply map_length.
  apply count_split; auto.
  - apply reach_bound.
  - intros i. rewrite Hi. unfold gotk. split; intros [H1 H2]; split; auto.
    + intros H3. apply H2. pose proof H3 as H4. apply O2 in H4. apply nth_error_Some in H4.
      destruct (nth_error pts i) as [pt|] eqn:EP; [|congruence].
      pose proof (md_sent _ _ _ M i) as HM. rewrite EP in HM. cbn in HM.
      exists i, (mkSmsg SA 1 i pt). repeat split; auto. now apply (md_got _ _ _ M).
    + intros (j & m & Hj & Hmm & Hk & Hidx). apply H2. apply (md_got _ _ _ M) in Hj.
      pose proof (md_sent _ _ _ M j) as HM. rewrite Hmm in HM.
      destruct (nth_error pts j) as [pt|]; [|discriminate]. cbn in HM. injection HM as ->. cbn in Hidx. now subst.
Qed.

(* every 2001st message *)
Fixpoint sparse (k : nat) (rnds : list (nat -> bytes)) : list (nat * (nat -> bytes)) :=
  match rnds with [] => [] | r :: t => ((2001 * k + 2000)%nat, r) :: sparse (S k) t end.

Lemma sparse_in k rnds j : In j (map fst (sparse k rnds)) ->
  exists d, (d < length rnds)%nat /\ (j = 2001 * (k + d) + 2000)%nat.
Proof.
  revert k. induction rnds as [|r t IH]; intros k; cbn [sparse map fst In length]; [intros []|].
  intros [<-|H]; [exists 0%nat; split; lia|]. apply IH in H. destruct H as (d & H1 & ->). exists (S d). split; lia.
Qed.

Lemma list_max_le l n : (forall x, In x l -> (x <= n)%nat) -> (list_max l <= n)%nat.
Proof.
  induction l as [|x l IH]; intros H; simpl; [lia|]. pose proof (H x (or_introl eq_refl)).
  assert (list_max l <= n)%nat by (apply IH; intros; apply H; now right). lia.
Qed.

Lemma sparse_reach rnds : forall k, rnds <> [] -> reach (map fst (sparse k rnds)) = (2001 * (k + length rnds))%nat.
Proof.
  induction rnds as [|r t IH]; intros k H; [congruence|].
  unfold reach. cbn [sparse map fst]. change (list_max (?a :: ?l)) with (Nat.max a (list_max l)).
  destruct t as [|r' t].
  - cbn [sparse map length]. change (list_max []) with 0%nat. lia.
  - specialize (IH (S k) ltac:(discriminate)). unfold reach in IH. rewrite IH. cbn [length]. lia.
Qed.

Lemma sparse_order rnds n : (2001 * length rnds <= n)%nat -> order_ok n (map fst (sparse 0 rnds)).
Proof.
  intros Hn. split; [|split].
  - assert (G : forall k, NoDup (map fst (sparse k rnds))); [|apply G].
    clear Hn. induction rnds as [|r t IH]; intros k; cbn [sparse map fst]; constructor; auto.
    intros H. apply sparse_in in H. destruct H as (d & _ & H). lia.
  - intros j H. apply sparse_in in H. destruct H as (d & H1 & ->). lia.
  - assert (G : forall k pre j post, map fst (sparse k rnds) = pre ++ j :: post ->
       (j <= Nat.max (2001 * k) (reach pre) + 2000)%nat).
    { clear Hn. induction rnds as [|r t IH]; intros k pre j post E; cbn [sparse map fst] in E.
      - destruct pre; discriminate.
      - destruct pre as [|x pre]; cbn [app] in E.
        + injection E as <- _. lia.
        + assert (E1 : x = (2001 * k + 2000)%nat) by congruence.
          assert (E2 : map fst (sparse (S k) t) = pre ++ j :: post) by congruence.
          apply IH in E2. unfold reach in *. cbn [map].
          change (list_max (?a :: ?l)) with (Nat.max a (list_max l)). lia. }
    intros pre j post E. apply G in E. lia.
Qed.

Theorem keys_grow rnds pts : rnds <> [] -> length pts = (2001 * length rnds)%nat ->
  Forall (fun pt => wfb pt /\ zlen pt < 2 ^ 60) pts ->
  Forall (fun r => length (r 0%nat) = 32%nat) rnds ->
  Z.of_nat (2002 * length rnds) < 2 ^ 32 ->
  NoDup (basepub C (st_spk st) :: basepub C (clamp (st_rratchet st))
         :: map (fun r => basepub C (clamp (r 0%nat))) rnds) ->
  exists s p, b_session (run C st (start C st) (sends pts ++ arrivals (sparse 0 rnds))) = Some (s, p) /\
    length (s_recv s) = 1%nat /\ (nkeys s = 2000 * length rnds)%nat.
Proof.
  intros H0 HL HP HR HZ HN.
  assert (G : forall k, map snd (sparse k rnds) = rnds).
  { clear. induction rnds as [|r t IH]; intros k; cbn [sparse map snd]; auto. now rewrite IH. }
  assert (L : length (sparse 0 rnds) = length rnds) by (rewrite <- (G 0%nat) at 2; now rewrite map_length).
  destruct (kept_keys pts (sparse 0 rnds)) as (s & p & H1 & H2 & H3); auto.
  - rewrite <- (G 0%nat), Forall_map in HR. exact HR.
  - destruct rnds; [congruence|discriminate].
  - apply sparse_order. rewrite HL. apply le_n.
  - rewrite L, HL. replace (2001 * length rnds + length rnds)%nat with (2002 * length rnds)%nat by lia. exact HZ.
  - rewrite <- (G 0%nat), map_map in HN. exact HN.
  - exists s, p. split; auto. split; auto. rewrite L, sparse_reach in H3 by auto.
    change (nkeys s + length rnds = 2001 * length rnds)%nat in H3.
    revert H3. generalize (nkeys s) (length rnds). intros a b H. lia.
Qed.
End S.
