(* Messages of one chain in any order: a consequence of the conversation theorem. *)
From Coq Require Import ZArith List Lia Bool.
From Verif Require Import Bytes Res Wire Crypto Cbc Messages Session Builder Conversation ConversationProofs.
Import ListNotations.
Open Scope Z_scope.

(* one more than the highest position in a list *)
Definition reach (l : list nat) : nat := list_max (map S l).

(* a list of arrivals, each with the randomness of its processing *)
Definition sends (pts : list bytes) : list action := map (Send SA) pts.
Definition arrivals (l : list (nat * (nat -> bytes))) : list action :=
  map (fun a => Deliver (fst a) (snd a)) l.

Lemma list_max_app a b : list_max (a ++ b) = Nat.max (list_max a) (list_max b).
Proof. induction a as [|x a IH]; simpl; [reflexivity|]. rewrite IH. lia. Qed.

Section I.
(* after all sends and some arrivals *)
Record mid (pts : list bytes) (done : list nat) (sp : spec) : Prop := {
  md_a : sp_epoch sp SA = 1%nat;
  md_b : sp_epoch sp SB = match done with [] => 0%nat | _ => 2%nat end;
  md_next : sp_next sp 1 = reach done;
  md_sent : forall j, nth_error (sp_sent sp) j = option_map (fun pt => mkSmsg SA 1 j pt) (nth_error pts j);
  md_got : forall j, In j (sp_got sp) <-> In j done }.

Lemma spec_run_app sp a b : spec_run sp (a ++ b) = spec_run (spec_run sp a) b.
Proof. apply fold_left_app. Qed.

Lemma sends_spec pts : exists c,
  spec_run spec0 (sends pts) = mkSpec (sp_epoch spec0) c (fun _ => 0%nat)
     (sp_sent (spec_run spec0 (sends pts))) [] /\ c SA = length pts /\
  forall j, nth_error (sp_sent (spec_run spec0 (sends pts))) j
            = option_map (fun pt => mkSmsg SA 1 j pt) (nth_error pts j).
Proof.
  induction pts as [|p pts IH] using rev_ind.
  - exists (fun _ => 0%nat). repeat split. intros []; reflexivity.
  - destruct IH as (c & E & Hc & Hj). unfold sends in *. rewrite map_app, spec_run_app. cbn [map spec_run fold_left].
    fold (sends pts) in *. rewrite E. cbn [spec_step sp_epoch sp_count sp_next sp_sent sp_got].
    set (sent := sp_sent (spec_run spec0 (sends pts))) in *.
    exists (upd_side c SA (S (c SA))). split; [reflexivity|]. split.
    + unfold upd_side. cbn. rewrite Hc, app_length. cbn. lia.
    + assert (HL : length sent = length pts).
      { apply Nat.le_antisymm.
        - apply nth_error_None. rewrite Hj. replace (nth_error pts (length pts)) with (@None bytes); auto.
          symmetry. apply nth_error_None. lia.
        - apply Nat.nlt_ge. intros Hlt. assert (nth_error sent (length sent) = None) by (apply nth_error_None; lia).
          rewrite Hj in H. destruct (nth_error pts (length sent)) eqn:E2; [discriminate|]. apply nth_error_None in E2. lia. }
      intros j. destruct (lt_eq_lt_dec j (length pts)) as [[Hlt| ->]|Hgt].
      * rewrite !nth_error_app1 by lia. apply Hj.
      * rewrite !nth_error_app2 by lia. rewrite HL, Nat.sub_diag. cbn. now rewrite Hc.
      * rewrite !nth_error_app2 by lia. rewrite HL. destruct (j - length pts)%nat as [|[|k]] eqn:Ek; [lia|reflexivity|reflexivity].
Qed.

Lemma mid0 pts : mid pts [] (spec_run spec0 (sends pts)).
Proof.
  destruct (sends_spec pts) as (c & E & Hc & Hj). constructor; auto; rewrite E; cbn; auto. tauto.
Qed.

Lemma mid_deliverable pts done sp j pt :
  mid pts done sp -> nth_error pts j = Some pt -> ~ In j done -> (j <= reach done + 2000)%nat ->
  deliverable sp j = true /\ nth_error (sp_sent sp) j = Some (mkSmsg SA 1 j pt).
Proof.
  intros M Hp Hn Hr. pose proof (md_sent _ _ _ M j) as HS. rewrite Hp in HS. cbn in HS. split; auto.
  unfold deliverable. rewrite HS. cbn [sm_from sm_epoch sm_idx other]. rewrite (md_b _ _ _ M), (md_next _ _ _ M).
  rewrite !andb_true_iff. repeat split.
  - rewrite negb_true_iff, <- not_true_iff_false, existsb_in, (md_got _ _ _ M). exact Hn.
  - unfold kept. destruct done; reflexivity.
  - now apply Nat.leb_le.
Qed.

Lemma mid_step pts done sp j rnd pt :
  mid pts done sp -> nth_error pts j = Some pt -> ~ In j done -> (j <= reach done + 2000)%nat ->
  mid pts (done ++ [j]) (spec_step sp (Deliver j rnd)).
Proof.
  intros M Hp Hn Hr. destruct (mid_deliverable _ _ _ _ _ M Hp Hn Hr) as [Hd Hs].
  assert (HN : reach (done ++ [j]) = Nat.max (reach done) (S j)).
  { unfold reach. rewrite map_app, list_max_app. cbn. lia. }
  unfold spec_step. rewrite Hd, Hs. cbn [sm_from sm_epoch sm_idx other]. rewrite (md_b _ _ _ M).
  assert (HG : forall z, In z (j :: sp_got sp) <-> In z (done ++ [j])).
  { intros z. rewrite in_app_iff. cbn [In]. rewrite (md_got _ _ _ M). tauto. }
  destruct done as [|d done]; cbn [Nat.ltb Nat.leb].
  - constructor; cbn [sp_epoch sp_next sp_sent sp_got]; auto.
    + unfold upd_side. cbn. apply (md_a _ _ _ M).
    + rewrite HN. unfold upd_nat. cbn [Nat.eqb]. now rewrite (md_next _ _ _ M).
    + apply (md_sent _ _ _ M).
  - constructor; cbn [sp_epoch sp_next sp_sent sp_got]; auto.
    + apply (md_a _ _ _ M).
    + apply (md_b _ _ _ M).
    + rewrite HN. unfold upd_nat. cbn [Nat.eqb]. now rewrite (md_next _ _ _ M).
    + apply (md_sent _ _ _ M).
Qed.

(* an acceptable order of arrivals *)
Definition order_ok (n : nat) (order : list nat) : Prop :=
  NoDup order /\ (forall j, In j order -> (j < n)%nat) /\
  forall pre j post, order = pre ++ j :: post -> (j <= reach pre + 2000)%nat.

Variable C : crypto.
Hypothesis OK : crypto_ok C.
Variable st : setup.
Hypothesis SO : setup_ok C st.

Lemma mid_run pts arr done sp :
  mid pts done sp -> order_ok (length pts) (done ++ map fst arr) ->
  mid pts (done ++ map fst arr) (spec_run sp (arrivals arr)).
Proof.
  revert done sp. induction arr as [|[j rnd] arr IH]; intros done sp M O.
  - cbn. now rewrite app_nil_r.
  - cbn [arrivals map spec_run fold_left fst snd] in *.
    replace (done ++ j :: map fst arr) with ((done ++ [j]) ++ map fst arr) in * by now rewrite <- app_assoc.
    apply IH; auto. destruct O as (O1 & O2 & O3).
    destruct (nth_error pts j) as [pt|] eqn:Ep.
    + eapply mid_step; eauto.
      * rewrite <- app_assoc in O1. apply NoDup_remove_2 in O1. intros H. apply O1. rewrite in_app_iff. auto.
      * apply (O3 done j (map fst arr)). now rewrite <- app_assoc.
    + exfalso. apply nth_error_None in Ep. assert (j < length pts)%nat; [|lia]. apply O2.
      rewrite !in_app_iff. left. right. now left.
Qed.

Lemma admissible_arrivals pts arr done sp y :
  mid pts done sp -> order_ok (length pts) (done ++ map fst arr) ->
  Forall (fun a => length (snd a 0%nat) = 32%nat) arr ->
  admissible C st y sp (arrivals arr).
Proof.
  revert done sp y. induction arr as [|[j rnd] arr IH]; intros done sp y M O F; [exact I|].
  inversion F as [|? ? F1 F2]; subst.
  cbn [arrivals map fst snd] in *. pose proof O as (O1 & O2 & O3).
  assert (Ep : exists pt, nth_error pts j = Some pt).
  { destruct (nth_error pts j) as [pt|] eqn:Ep; [eauto|]. exfalso. apply nth_error_None in Ep.
    assert (j < length pts)%nat; [|lia]. apply O2. rewrite in_app_iff. right. now left. }
  destruct Ep as (pt & Ep).
  assert (Hn : ~ In j done) by (apply NoDup_remove_2 in O1; intros H; apply O1; rewrite in_app_iff; auto).
  assert (Hr : (j <= reach done + 2000)%nat) by now apply (O3 done j (map fst arr)).
  split.
  - split; [exact F1|]. left. eapply mid_deliverable; eauto.
  - apply (IH (done ++ [j])); auto.
    + eapply mid_step; eauto.
    + now rewrite <- app_assoc.
Qed.

Lemma admissible_sends pts rest : Forall (fun pt => wfb pt /\ zlen pt < 2 ^ 60) pts ->
  forall y sp, sp_epoch sp SA <> 0%nat ->
  (forall y', admissible C st y' (spec_run sp (sends pts)) rest) ->
  admissible C st y sp (sends pts ++ rest).
Proof.
  intros F. induction F as [|pt pts Hp F IH]; intros y sp H0 HR; [apply HR|].
  cbn [sends map app admissible]. split.
  - cbn. tauto.
  - apply IH; auto.
Qed.

Lemma any_order pts (arr : list (nat * (nat -> bytes))) :
  Forall (fun pt => wfb pt /\ zlen pt < 2 ^ 60) pts ->
  Forall (fun a => length (snd a 0%nat) = 32%nat) arr ->
  order_ok (length pts) (map fst arr) ->
  Z.of_nat (length pts + length arr) < 2 ^ 32 ->
  NoDup (basepub C (st_spk st) :: basepub C (clamp (st_rratchet st))
         :: map (fun a => basepub C (clamp (snd a 0%nat))) arr) ->
  forall pre j rnd post, arr = pre ++ (j, rnd) :: post ->
  exists pt l, nth_error pts j = Some pt /\
    perform C (st_peer st) (run C st (start C st) (sends pts ++ arrivals pre)) (Deliver j rnd)
    = (SB, Ok pt, l).
Proof.
  intros HP HA HO HL HN pre j rnd post E.
  assert (HG : good_schedule C st (sends pts ++ arrivals arr)).
  { split.
    - unfold sends, arrivals. rewrite app_length, !map_length. exact HL.
    - rewrite flat_map_app. replace (flat_map (fresh_pub C) (sends pts)) with (@nil bytes).
      2: { clear. induction pts; simpl; auto. }
      cbn [app]. replace (flat_map (fresh_pub C) (arrivals arr))
        with (map (fun a : nat * (nat -> bytes) => basepub C (clamp (snd a 0%nat))) arr); [exact HN|].
      clear. induction arr as [|a arr IH]; simpl; auto. now rewrite IH. }
  assert (HAd : admissible C st (start C st) spec0 (sends pts ++ arrivals arr)).
  { apply admissible_sends; auto. { cbn. lia. }
    intros y'. apply (admissible_arrivals pts arr []); auto. apply mid0. }
  assert (HX : sends pts ++ arrivals arr = (sends pts ++ arrivals pre) ++ Deliver j rnd :: arrivals post).
  { rewrite E. unfold arrivals. rewrite map_app, <- app_assoc. reflexivity. }
  pose proof (conversation C OK st SO _ HG HAd _ _ _ HX) as HC.
  unfold expected in HC.
  assert (M : mid pts (map fst pre) (spec_run (spec_run spec0 (sends pts)) (arrivals pre))).
  { apply (mid_run pts pre []); [apply mid0|]. cbn [app]. destruct HO as (O1 & O2 & O3). rewrite E, map_app in *.
    split; [|split].
    - clear -O1. induction (map fst pre) as [|a l IH]; [constructor|]. cbn in O1. inversion O1; subst.
      constructor; auto. rewrite in_app_iff in *. tauto.
    - intros z Hz. apply O2. rewrite in_app_iff. auto.
    - intros p z q Hz. apply (O3 p z (q ++ map fst ((j, rnd) :: post))). rewrite Hz, <- app_assoc. reflexivity. }
  rewrite spec_run_app in HC.
  destruct HO as (O1 & O2 & O3). rewrite E, map_app in *. cbn [map fst] in *.
  destruct (nth_error pts j) as [pt|] eqn:Ep.
  2: { exfalso. apply nth_error_None in Ep. assert (j < length pts)%nat; [|lia]. apply O2. rewrite in_app_iff. right. now left. }
  destruct (mid_deliverable pts (map fst pre) _ j pt M Ep) as [Hd Hs].
  { apply NoDup_remove_2 in O1. intros H. apply O1. rewrite in_app_iff. auto. }
  { now apply (O3 _ _ (map fst post)). }
  destruct (perform _ _ _ _) as [[x r] l] eqn:EPf. destruct HC as [HC _].
  destruct (HC Hd) as (m & Hm & -> & ->). rewrite Hs in Hm. injection Hm as <-. exists pt, l. auto.
Qed.
End I.
