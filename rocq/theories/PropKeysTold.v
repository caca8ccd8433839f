(* C190: the prekeys the server was told can be used. After any number of starts, each carried out or cut off at any
   write, whatever was uploaded is in the store with the private keys that belong to it, except perhaps the signed prekey. *)
From Coq Require Import ZArith List Lia Bool Sorted.
From Verif Require Import Bytes Res Wire WireProofs Crypto Cbc Messages Session Builder RecordCodec RecordCodecProofs Decimal Storage
  StorageProofs Encodings PreKeyGen PropPreKeys Profile Startup PropStartup Examples.
Import ListNotations.
Open Scope Z_scope.

(* the key pairs drawn in a start are key pairs, the signature and the time are of the usual size *)
Record good_keys (I : input) : Prop := {
  gk_kps : forall i, goodkp (i_kps I i);
  gk_skp : goodkp (i_skp I);
  gk_sig : wfb (i_signature I) /\ zlen (i_signature I) = 64;
  gk_time : 0 <= i_time I < 2 ^ 64 }.

Section T.
Variable C : crypto.
Variable cf : sconf.

(* any number of starts of an installation that began with an empty disk, each cut off after any number of its events *)
Inductive tried : disk -> Prop :=
| tried_new c : tried ([], c)
| tried_more I d r d' l k : tried d -> good_in I -> good_keys I -> start C cf I d = (r, d', l) -> tried (crashed d (firstn k l)).

Hypothesis OK : crypto_ok C.
Hypothesis CF : conf_ok cf.

Section I.
Variable I : input.
Hypothesis GI : good_in I.
Hypothesis GK : good_keys I.

Let inv := PropPreKeys.inv C cf.
Definition fine (e : ev) : Prop := match e with EvDisk fs _ => inv fs | _ => True end.
Definition Rfine (s s' : pst) : Prop := inv (t_files s) -> inv (t_files s') /\ since fine s s'.
Lemma fine_refl s : Rfine s s.
Proof. intros H. split; [exact H|apply since_refl]. Qed.
Lemma fine_trans a b c : Rfine a b -> Rfine b c -> Rfine a c.
Proof. intros H K V. destruct (H V) as (V1 & S1). destruct (K V1) as (V2 & S2). split; [exact V2|eapply since_trans; eauto]. Qed.
Lemma fine_other p b : fst p <> DPreKeys -> keeps Rfine (write C cf I p b).
Proof.
  intros N s V. unfold write. destruct (i_wok I _); [|split; [exact V|apply since_none; reflexivity]].
  destruct (writeFile C cf _ (t_files s) p b) as [fs|e|] eqn:E; cbn [snd t_files]; try (split; [exact V|apply since_none; reflexivity]).
  assert (inv fs).
  { unfold writeFile in E. destruct (st_encrypt _ _ _ _) as [ct|e|]; cbn [bind] in E; try discriminate. injection E as <-.
    apply inv_other; assumption. }
  split; [assumption|]. eapply since_one; [reflexivity|assumption].
Qed.
Lemma fine_prekey id kp : 0 <= id < 10 ^ 9 -> goodkp kp -> keeps Rfine (genPreKey C cf I id kp).
Proof.
  intros L (K1 & K2 & K3 & K4) s V. unfold genPreKey, write. destruct (i_wok I _); [|split; [exact V|apply since_none; reflexivity]].
  destruct (writeFile C cf _ (t_files s) _ _) as [fs|e|] eqn:E; cbn [snd t_files]; try (split; [exact V|apply since_none; reflexivity]).
  assert (inv fs).
  { eapply (inv_write C OK cf) with (r := mkPkr id (snd kp) (fst kp)); [exact V|apply (gi_iv _ GI (t_nw s))| | | |exact E];
      [split; [|split; [|split; [|split]]]; try assumption; cbn [pkr_id]; lia|reflexivity|lia]. }
  split; [assumption|]. eapply since_one; [reflexivity|assumption].
Qed.
Lemma fine_batch n : forall i start, 0 <= start <= 16777215 -> (i + n <= 100)%nat -> keeps Rfine (genBatch C cf I n i start).
Proof.
  induction n as [|n IH]; intros i st S L; cbn [genBatch]; [apply keeps_ret; apply fine_refl|].
  apply (keeps_bind _ fine_trans); [|intros _; apply IH; lia]. rewrite Z.mod_small by lia.
  apply fine_prekey; [lia|apply (gk_kps _ GK)].
Qed.
Lemma fine_gen : keeps Rfine (genPreKeys C cf I).
Proof.
  unfold genPreKeys. apply (keeps_bind _ fine_trans); [apply fine_batch; [apply land24|unfold preKeyBatchSize; lia]|intros _].
  apply (keeps_bind _ fine_trans); [apply fine_prekey; [unfold lastResortPreKeyID; lia|apply (gk_kps _ GK)]|intros _].
  apply keeps_ignore. apply fine_other. discriminate.
Qed.
Lemma fine_save : keeps Rfine (saveConfig I).
Proof. intros s V. unfold saveConfig. destruct (i_cok I _); (split; [exact V|]); [eapply since_one; [reflexivity|exact V]|apply since_none; reflexivity]. Qed.
Ltac f0 := intros s V; split; [exact V|]; apply since_none; reflexivity.
Lemma fine_say e : fine e -> keeps Rfine (say e).
Proof. intros F s V. split; [exact V|]. eapply since_one; [reflexivity|exact F]. Qed.
Lemma fine_stageA : keeps Rfine (stageA C cf I).
Proof.
  pose proof fine_refl as Rr. pose proof fine_trans as Rt. unfold stageA.
  repeat (apply (keeps_bind _ Rt); [first [apply keeps_ignore, fine_other; discriminate | apply fine_other; discriminate | f0] | intros _]).
  destruct (i_register I); [|apply keeps_fail; auto|apply keeps_panic; auto].
  destruct (i_verify I); [|apply keeps_fail; auto|apply keeps_panic; auto].
  apply (keeps_bind _ Rt); [apply fine_say; exact Logic.I|intros _].
  apply (keeps_bind _ Rt); [f0|intros _]. apply (keeps_bind _ Rt); [apply fine_save|intros _]. apply keeps_ret; auto.
Qed.

(* ---- what the generation leaves ---- *)
Lemma prekey_stored id kp s s' : 0 <= id < 2 ^ 32 -> goodkp kp -> genPreKey C cf I id kp s = (Ok tt, s') ->
  LoadPreKey C cf (t_files s') id = Ok (mkPkr id (snd kp) (fst kp)) /\
  forall j, 0 <= j < 2 ^ 32 -> j <> id -> LoadPreKey C cf (t_files s') j = LoadPreKey C cf (t_files s) j.
Proof.
  intros L (K1 & K2 & K3 & K4) E. unfold genPreKey, write in E. destruct (i_wok I _); [|discriminate].
  destruct (writeFile C cf _ (t_files s) _ _) as [fs|e|] eqn:W; try discriminate. injection E as <-. cbn [t_files].
  eapply (load_store C OK cf); [apply (gi_iv _ GI (t_nw s))| |reflexivity|exact W].
  split; [|split; [|split; [|split]]]; try assumption; cbn [pkr_id]; lia.
Qed.
Lemma batch_stored n : forall i start s s', 0 <= start <= 16777215 -> (i + n <= 100)%nat ->
  genBatch C cf I n i start s = (Ok tt, s') ->
  (forall k, (i <= k < i + n)%nat -> LoadPreKey C cf (t_files s') (start + Z.of_nat k) = Ok (batch_rec start (i_kps I) k)) /\
  (forall j, 0 <= j < 2 ^ 32 -> ~ (start + Z.of_nat i <= j < start + Z.of_nat (i + n)) ->
     LoadPreKey C cf (t_files s') j = LoadPreKey C cf (t_files s) j).
Proof.
  induction n as [|n IH]; intros i start s s' St L E; cbn [genBatch] in E.
  - injection E as <-. split; [intros; lia|reflexivity].
  - apply bind_inv in E as ([] & s1 & E1 & E). rewrite Z.mod_small in E1 by lia.
    apply prekey_stored in E1 as (A & B); [|lia|apply (gk_kps _ GK)].
    destruct (IH (S i) start s1 s' St ltac:(lia) E) as (B1 & B2). split.
    + intros k Hk. destruct (Nat.eq_dec k i) as [->|Nk]; [|apply B1; lia]. rewrite B2 by lia. exact A.
    + intros j J N. rewrite B2 by lia. apply B; lia.
Qed.
Lemma write_load p b s id : fst p <> DPreKeys -> LoadPreKey C cf (t_files (snd (write C cf I p b s))) id = LoadPreKey C cf (t_files s) id.
Proof.
  intros N. unfold LoadPreKey, readFile. rewrite write_other; [reflexivity|]. intros <-. apply N. reflexivity.
Qed.

Definition drawn_kept (f : files) : Prop :=
  (forall k, (k < 100)%nat -> randID (i_prand I) + Z.of_nat k <> 16777215 ->
     let id := randID (i_prand I) + Z.of_nat k in
     LoadPreKey C cf f id = Ok (mkPkr id (snd (i_kps I k)) (fst (i_kps I k)))) /\
  LoadPreKey C cf f 16777215 = Ok (mkPkr 16777215 (snd (i_kps I 100)) (fst (i_kps I 100))).
Definition signed_kept (f : files) : Prop :=
  (forall n, i_wok I n = true) -> LoadSignedPreKey C cf f (randID (i_srand I)) =
    Ok (mkSpkr (randID (i_srand I)) (snd (i_skp I)) (fst (i_skp I)) (i_signature I) (i_time I)).

Lemma spk_small : zlen (spkr_serialize (signedRecord I)) < 2 ^ 63 /\ wfb (spkr_serialize (signedRecord I)).
Proof.
  destruct (gk_skp _ GK) as (L1 & W1 & L2 & W2). destruct (gk_sig _ GK) as (W3 & L3). pose proof (gk_time _ GK) as T.
  pose proof (land24 (i_srand I)) as R. unfold signedRecord. split.
  - assert (V : forall v, (length (varint v) <= 10)%nat) by (intros; apply enc_varint_le).
    assert (F : (length (spkr_serialize (mkSpkr (randID (i_srand I)) (snd (i_skp I)) (fst (i_skp I)) (i_signature I) (i_time I))) <= 400)%nat);
      [|unfold zlen; lia].
    unfold spkr_serialize, marshal, spkr_slots, flat, encode, f_u32, f_bytes, f_f64.
    cbn [flat_map map fst snd spkr_id spkr_pub spkr_priv spkr_sig spkr_time].
    assert (L3' : length (i_signature I) = 64%nat) by (unfold zlen in L3; lia).
    destruct (snd (i_skp I)) as [|x1 t1] eqn:E1; [discriminate|]. destruct (fst (i_skp I)) as [|x2 t2] eqn:E2; [discriminate|].
    destruct (i_signature I) as [|x3 t3] eqn:E3; [discriminate|].
    destruct (randID (i_srand I) =? 0); destruct (i_time I =? 0); cbn [map app flat_map]; unfold enc_field; cbn [fst snd enc_val];
      repeat rewrite app_length; rewrite ?le_enc_length; cbn [length] in *;
      repeat match goal with |- context [length (varint ?v)] => pose proof (V v); generalize dependent (length (varint v)); intros end; lia.
  - apply marshal_wf. unfold spkr_slots.
    repeat (apply Forall_cons; [cbn [fst snd spkr_id spkr_pub spkr_priv spkr_sig spkr_time]; split; [lia|];
      first [apply wb_u32; unfold u32; lia | apply wb_bytes; assumption | apply wb_f64]|]). apply Forall_nil.
Qed.
Lemma gen_stored s s' : genPreKeys C cf I s = (Ok tt, s') -> drawn_kept (t_files s') /\ signed_kept (t_files s').
Proof.
  intros E. unfold genPreKeys in E. apply bind_inv in E as ([] & s1 & E1 & E). apply bind_inv in E as ([] & s2 & E2 & E).
  pose proof (land24 (i_prand I)) as R. unfold preKeyBatchSize, lastResortPreKeyID in *.
  apply batch_stored in E1 as (A & _); [|exact R|lia].
  apply prekey_stored in E2 as (B1 & B2); [|lia|apply (gk_kps _ GK)]. split.
  - apply ignore_inv in E. subst s'. unfold drawn_kept. rewrite write_load by discriminate. split; [|exact B1].
    intros k Hk N. cbv zeta. rewrite write_load by discriminate. rewrite B2 by lia. apply A. lia.
  - intros W. apply ignore_inv in E. subst s'. destruct spk_small as (S1 & S2).
    destruct (write_works C cf I CF GI (signedPath (spkr_id (signedRecord I))) (spkr_serialize (signedRecord I)) s2 W) as (s3 & E3).
    rewrite E3. cbn [snd]. destruct (write_same C cf I OK GI _ _ _ _ S2 E3) as (X & _).
    unfold LoadSignedPreKey. change (randID (i_srand I)) with (spkr_id (signedRecord I)) at 1. rewrite X. cbn [bind].
    pose proof (land24 (i_srand I)). apply signed_prekey_round_trip; [unfold u32, signedRecord; cbn [spkr_id]; lia|apply (gk_time _ GK)|exact S1].
Qed.

(* ---- a whole start ---- *)
Lemma traced_stageA : keeps traced (stageA C cf I).
Proof.
  pose proof traced_refl as Rr. pose proof traced_trans as Rt. unfold stageA.
  repeat (apply (keeps_bind _ Rt); [first [apply keeps_ignore, traced_write | apply traced_write | intros s; exists []; split; reflexivity] | intros _]).
  destruct (i_register I); [|apply keeps_fail; auto|apply keeps_panic; auto].
  destruct (i_verify I); [|apply keeps_fail; auto|apply keeps_panic; auto].
  apply (keeps_bind _ Rt); [apply traced_say; discriminate|intros _].
  apply (keeps_bind _ Rt); [intros s; exists []; split; reflexivity|intros _].
  apply (keeps_bind _ Rt); [apply traced_save|intros _]. apply keeps_ret; auto.
Qed.
Record told (d : disk) (l : list ev) (ik : bytes) (ps : pkstate) (spk : spk_rec) : Prop := {
  td_split : exists l1 lC u, l = l1 ++ EvUpload ik ps spk :: lC /\ Forall no_upload l1 /\
    Forall (later C cf (fst (crashed d l1)) u) lC /\ inv (fst (crashed d l1)) /\
    generatePreKeyState C cf (fst (crashed d l1)) = Ok ps /\ drawn_kept (fst (crashed d l1)) /\ signed_kept (fst (crashed d l1));
  td_spk : spk = signedRecord I }.
Lemma later_fine f u l : inv f -> Forall (later C cf f u) l -> Forall fine l.
Proof. intros V F. eapply Forall_impl; [|exact F]. intros [] H; try exact Logic.I. cbn [later] in H. destruct H as (-> & _). exact V. Qed.
Lemma later_no_upload f u l : Forall (later C cf f u) l -> Forall no_upload l.
Proof. intros F. eapply Forall_impl; [|exact F]. intros [] H; try exact Logic.I. destruct H. Qed.
Lemma early_no_upload l : Forall early l -> Forall no_upload l.
Proof. intros F. eapply Forall_impl; [|exact F]. intros [] H; try exact Logic.I. destruct H. Qed.
Lemma making_no_upload f c l : Forall (making f c) l -> Forall no_upload l.
Proof. intros F. eapply Forall_impl; [|exact F]. intros [] H; try exact Logic.I. destruct H. Qed.
Lemma no_upload_in l ik ps spk : Forall no_upload l -> ~ In (EvUpload ik ps spk) l.
Proof. intros F X. rewrite Forall_forall in F. exact (F _ X). Qed.

Lemma start_told d r d' l : inv (fst d) -> start C cf I d = (r, d', l) ->
  Forall fine l /\ forall ik ps spk, In (EvUpload ik ps spk) l -> told d l ik ps spk.
Proof.
  intros V. unfold start. rewrite setup_split. cbn zeta. cbn [boot t_files t_disk t_nw t_nc t_drawn t_log].
  destruct (valid (fst d)) eqn:VD.
  { match goal with |- context [rest C cf I ?s0] => pose proof (later_rest C cf I (fst d) (g_uuid (snd d)) s0 eq_refl eq_refl) as (_ & _ & m & L & F) end.
    destruct (rest C cf I _) as (r0, s). cbn [snd t_log] in L. rewrite app_nil_r in L. intros [= <- <- <-]. subst m.
    split; [apply Forall_rev_ev, (later_fine _ _ _ V F)|]. intros ik ps spk X. exfalso.
    apply (no_upload_in _ ik ps spk (Forall_rev_ev _ _ (later_no_upload _ _ _ F)) X). }
  set (s0 := mkPst _ _ _ _ _ _ _). rewrite register_split.
  assert (V0 : valid (t_files s0) = false) by exact VD. assert (I0 : inv (t_files s0)) by exact V.
  assert (L0 : t_log s0 = []) by reflexivity. assert (D0 : (t_files s0, t_disk s0) = d) by (destruct d; reflexivity). clearbody s0.
  unfold mbind at 1. destruct (early_stageA C cf I s0 V0) as (VA & m & LA & FA).
  destruct (fine_stageA s0 I0) as (IA & m' & LA' & FA'). pose proof (traced_stageA s0) as (mA & TA1 & TA2).
  destruct (stageA C cf I s0) as [rA sA] eqn:EA. cbn [snd] in *. rewrite L0, app_nil_r in LA, LA', TA1. subst m m' mA.
  assert (ST : rA = Err EOther \/ True) by auto. clear ST.
  assert (SHA : Forall fine (rev (t_log sA)) /\ forall ik ps spk, In (EvUpload ik ps spk) (rev (t_log sA)) -> told d (rev (t_log sA)) ik ps spk).
  { split; [apply Forall_rev_ev, FA'|]. intros ik ps spk X. exfalso.
    apply (no_upload_in _ ik ps spk (Forall_rev_ev _ _ (early_no_upload _ FA)) X). }
  destruct rA as [uuid|e|]; [|intros [= <- <- <-]; exact SHA|intros [= <- <- <-]; exact SHA].
  destruct (stageA_ok C cf I OK CF GI _ _ _ V0 EA) as (U & _ & _ & UC & MD & ID & PW).
  unfold mbind at 1.
  destruct (making_gen C cf I (t_files sA) (t_disk sA) sA eq_refl ltac:(intros p _ _; reflexivity)) as (D1 & M1 & S1 & mB & LB & FB).
  destruct (fine_gen sA IA) as (IB & mB1 & LB1 & FB1). pose proof (traced_gen C cf I sA) as (mB' & LB2 & TB). pose proof (gen_stored sA) as GS.
  destruct (genPreKeys C cf I sA) as [rB sB]. cbn [snd] in *.
  assert (mB' = mB) as -> by (apply (app_inv_tail (t_log sA)); congruence).
  assert (mB1 = mB) as -> by (apply (app_inv_tail (t_log sA)); congruence).
  set (l1 := rev (t_log sB)).
  assert (FL1 : Forall fine l1). { unfold l1. rewrite LB. apply Forall_rev_ev, Forall_app. auto. }
  assert (NL1 : Forall no_upload l1).
  { unfold l1. rewrite LB. apply Forall_rev_ev, Forall_app. split; [eapply making_no_upload; exact FB|apply early_no_upload, FA]. }
  assert (CL1 : crashed d l1 = (t_files sB, t_disk sB)).
  { unfold l1. rewrite LB, rev_app_distr, crashed_app, <- D0, TA2. exact TB. }
  assert (SHB : Forall fine l1 /\ forall ik ps spk, In (EvUpload ik ps spk) l1 -> told d l1 ik ps spk).
  { split; [exact FL1|]. intros ik ps spk X. exfalso. apply (no_upload_in _ ik ps spk NL1 X). }
  destruct rB as [[]|e|]; [|intros [= <- <- <-]; exact SHB|intros [= <- <- <-]; exact SHB].
  destruct (GS _ eq_refl) as (G1 & G2).
  unfold mbind at 1, lift at 1. destruct (generatePreKeyState C cf (t_files sB)) as [ps|e|] eqn:PS;
    [|intros [= <- <- <-]; exact SHB|intros [= <- <- <-]; exact SHB].
  assert (DN : forall mD, Forall (later C cf (t_files sB) uuid) mD ->
    l = rev (mD ++ EvUpload (snd (i_ident I)) ps (signedRecord I) :: t_log sB) ->
    Forall fine l /\ forall ik ps spk, In (EvUpload ik ps spk) l -> told d l ik ps spk).
  { intros mD FD ->. rewrite rev_app_distr. cbn [rev]. rewrite <- app_assoc. cbn [app]. fold l1. split.
    - apply Forall_app. split; [exact FL1|]. constructor; [exact Logic.I|]. apply Forall_rev_ev. eapply later_fine; eauto.
    - intros ik ps' spk X. apply in_app_or in X as [X|[X|X]].
      + exfalso. apply (no_upload_in _ ik ps' spk NL1 X).
      + injection X as <- <- <-. constructor; [|reflexivity]. exists l1, (rev mD), uuid. rewrite CL1. cbn [fst].
        split; [reflexivity|]. split; [exact NL1|]. split; [apply Forall_rev_ev, FD|]. auto.
      + exfalso. apply in_rev in X. apply (no_upload_in _ ik ps' spk (later_no_upload _ _ _ FD) X). }
  destruct (later_post C cf I (t_files sB) uuid ps sB eq_refl ltac:(congruence)) as [(L & N & F)|(mC & LC & FC & FF & UU)].
  - destruct (post I ps sB) as [[[]|e|] sC]; cbn [fst snd] in *; [now elim N|..]; intros [= <- <- <-]; rewrite L; exact SHB.
  - destruct (post I ps sB) as [[u2|e|] sC]; cbn [fst snd] in *;
      [|intros [= <- <- <-]; apply (DN mC FC); now rewrite LC|intros [= <- <- <-]; apply (DN mC FC); now rewrite LC].
    destruct (later_rest C cf I (t_files sB) uuid sC FF UU) as (_ & _ & mD & LD & FD).
    destruct (rest C cf I sC) as (r1, sD). cbn [snd] in *. intros [= <- <- <-]. apply (DN (mD ++ mC)); [apply Forall_app; auto|].
    now rewrite LD, LC, app_assoc.
Qed.
End I.

Lemma crashed_inv l : forall d, PropPreKeys.inv C cf (fst d) -> Forall fine l -> PropPreKeys.inv C cf (fst (crashed d l)).
Proof.
  induction l as [|e l IH]; intros d V F; [exact V|]. inversion F; subst. cbn [crashed fold_left]. apply IH; [|assumption].
  destruct e; try exact V. exact H1.
Qed.
Lemma Forall_firstn_ev (P : ev -> Prop) k : forall l, Forall P l -> Forall P (firstn k l).
Proof. induction k; intros l F; [constructor|]. destruct F; cbn [firstn]; constructor; auto. Qed.
Lemma tried_inv d : tried d -> PropPreKeys.inv C cf (fst d).
Proof.
  induction 1 as [c|I d r d' l k T IH GI GK E]; [split; constructor|].
  apply crashed_inv; [exact IH|]. apply Forall_firstn_ev. eapply (start_told I GI GK); eauto.
Qed.
Lemma later_crashed f u l : Forall (later C cf f u) l -> forall d, fst d = f -> fst (crashed d l) = f.
Proof.
  induction 1 as [|e l H F IH]; intros d E; [exact E|]. cbn [crashed fold_left]. apply IH. destruct e; try exact E.
  destruct H as (-> & _). reflexivity.
Qed.
End T.

(* Whatever was uploaded in a start is what is stored when the process stops at any time after the upload:
   the identity key, every prekey, with the public keys that were told and the private keys drawn with them; and the signed
   prekey, if all writes worked. Without that condition the claim for the signed prekey is false, see below. *)
Theorem C190_told_is_kept : forall C cf, crypto_ok C -> conf_ok cf ->
  forall I d r d' l k ik ps spk, tried C cf d -> good_in I -> good_keys I -> start C cf I d = (r, d', l) ->
  In (EvUpload ik ps spk) (firstn k l) ->
  let f := fst (crashed d (firstn k l)) in
  (forall id key, In (id, key) (ps_keys ps ++ [ps_last ps]) <->
     exists p, 0 <= id < 2 ^ 32 /\ LoadPreKey C cf f id = Ok p /\ key = encodeKey (pkr_pub p)) /\
  (forall n, (n < 100)%nat -> Z.land (i_prand I) (2 ^ 24 - 1) + Z.of_nat n <> 2 ^ 24 - 1 ->
     let id := Z.land (i_prand I) (2 ^ 24 - 1) + Z.of_nat n in
     In (id, encodeKey (snd (i_kps I n))) (ps_keys ps ++ [ps_last ps]) /\
     LoadPreKey C cf f id = Ok (mkPkr id (snd (i_kps I n)) (fst (i_kps I n)))) /\
  In (2 ^ 24 - 1, encodeKey (snd (i_kps I 100))) (ps_keys ps ++ [ps_last ps]) /\
  LoadPreKey C cf f (2 ^ 24 - 1) = Ok (mkPkr (2 ^ 24 - 1) (snd (i_kps I 100)) (fst (i_kps I 100))) /\
  spk = mkSpkr (Z.land (i_srand I) (2 ^ 24 - 1)) (snd (i_skp I)) (fst (i_skp I)) (i_signature I) (i_time I) /\
  ((forall n, i_wok I n = true) -> LoadSignedPreKey C cf f (spkr_id spk) = Ok spk).
Proof.
  intros C cf OK CF I d r d' l k ik ps spk T GI GK E X f.
  pose proof (tried_inv C cf OK CF d T) as V.
  destruct (start_told C cf OK CF I GI GK d r d' l V E) as (FL & TD).
  assert (XL : In (EvUpload ik ps spk) l) by (rewrite <- (firstn_skipn k l); apply in_or_app; now left).
  destruct (TD ik ps spk XL) as [(l1 & lC & u & EL & NU & LT & IV & GP & (DK1 & DK2) & SK) ES].
  assert (F : f = fst (crashed d l1)).
  { unfold f. rewrite EL in X |- *. rewrite firstn_app in X |- *. rewrite crashed_app.
    destruct (Nat.le_gt_cases k (length l1)) as [Lk|Lk].
    - exfalso. rewrite (proj2 (Nat.sub_0_le k (length l1)) Lk) in X. cbn [firstn] in X. rewrite app_nil_r in X.
      apply (no_upload_in _ ik ps spk (Forall_firstn_ev _ k _ NU) X).
    - rewrite firstn_all2 by lia. destruct (k - length l1)%nat as [|j] eqn:J; [lia|]. cbn [firstn]. 
      cbn [crashed fold_left]. apply (later_crashed C cf _ u); [apply Forall_firstn_ev; exact LT|reflexivity]. }
  rewrite F. clear F f X.
  destruct (upload_inv C cf (fst (crashed d l1)) IV) as [(_ & G)|(st & G & _ & M)]; [congruence|].
  assert (st = ps) as -> by congruence.
  split; [exact M|]. change (2 ^ 24 - 1) with 16777215. pose proof (land24 (i_prand I)) as R. unfold randID in *.
  split; [|split; [|split; [|split]]].
  - intros n Hn Nn. cbv zeta. specialize (DK1 n Hn Nn). cbv zeta in DK1. split; [|exact DK1]. apply M. eexists. split; [lia|]. split; [exact DK1|reflexivity].
  - apply M. eexists. split; [lia|]. split; [exact DK2|reflexivity].
  - exact DK2.
  - exact ES.
  - intros W. rewrite ES. exact (SK W).
Qed.
Print Assumptions C190_told_is_kept.

(* The error of storing the signed prekey is ignored (prekeys.go 112-122): the start succeeds, the key is uploaded, and
   its private half is nowhere, in this start and in every later one, so that no first message can be read. *)
Definition ex_unsigned : input := ex_in (fun n => negb (n =? 105)%nat) [1;2;3] [43;49] [65] 1 (Ok tt) (Ok 200) 1590000000 (CBody ex_cert).
Lemma ex_unsigned_good : good_in ex_unsigned.
Proof. apply ex_in_good. repeat constructor; unfold isbyte; lia. Qed.
Lemma ex_in_keys wok pass phone user ident reg upload now cert : good_keys (ex_in wok pass phone user ident reg upload now cert).
Proof.
  constructor; cbn [ex_in i_kps i_skp i_signature i_time]; [intros; apply ex_good|apply ex_good| |lia].
  split; [|reflexivity]. apply Forall_forall. intros x H. apply repeat_spec in H. subst. unfold isbyte. lia.
Qed.
Definition ex_disk_unsigned : disk := snd (fst (go ex_unsigned ([], ex_cfg))).
Theorem C190_signed_prekey_lost_refuted : exists I c k d1 l1 ik ps spk k2 d2 l2,
  good_in I /\ good_keys I /\ start toy ex_conf I ([], c) = (Ok (Some k), d1, l1) /\ In (EvUpload ik ps spk) l1 /\
  (exists e, LoadSignedPreKey toy ex_conf (fst d1) (spkr_id spk) = Err e) /\
  start toy ex_conf ex_again d1 = (Ok (Some k2), d2, l2) /\
  (exists e, LoadSignedPreKey toy ex_conf (fst d2) (spkr_id spk) = Err e).
Proof.
  exists ex_unsigned, ex_cfg, (ex_kps' 1), ex_disk_unsigned, (snd (go ex_unsigned ([], ex_cfg))).
  assert (E : existsb (fun e => match e with EvUpload _ _ s => spkr_id s =? 5 | _ => false end) (snd (go ex_unsigned ([], ex_cfg))) = true) by (vm_compute; reflexivity).
  apply existsb_exists in E as (e & X & Y). destruct e as [| |ik ps spk| | |]; try discriminate Y. apply Z.eqb_eq in Y.
  exists ik, ps, spk, (ex_kps' 1), (snd (fst (go ex_again ex_disk_unsigned))), (snd (go ex_again ex_disk_unsigned)).
  split; [exact ex_unsigned_good|]. split; [apply ex_in_keys|].
  split. { unfold ex_disk_unsigned. apply go_is. vm_compute. reflexivity. }
  split; [exact X|]. rewrite Y.
  split. { eexists. vm_compute. reflexivity. }
  split. { apply go_is. vm_compute. reflexivity. }
  eexists. vm_compute. reflexivity.
Qed.
Print Assumptions C190_signed_prekey_lost_refuted.

(* two starts: the first is cut off among its prekeys, the second is carried out *)
Example C190_example : tried toy ex_conf (crashed ([], ex_cfg) (firstn 20 (snd (go ex_again ([], ex_cfg))))) /\
  existsb is_upload (snd (go ex_first (crashed ([], ex_cfg) (firstn 20 (snd (go ex_again ([], ex_cfg))))))) = true.
Proof.
  split; [|vm_compute; reflexivity].
  eapply tried_more; [apply tried_new|exact ex_again_good|apply ex_in_keys|apply go_start].
Qed.
