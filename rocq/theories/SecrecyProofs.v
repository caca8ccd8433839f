(* What can be computed from a view is exactly what is exposed. *)
From Coq Require Import ZArith List Lia Bool PeanoNat.
From Verif Require Import Bytes Res Wire Crypto Cbc Messages Session Builder Conversation Secrecy.
Import ListNotations.
Open Scope Z_scope.

Lemma tdh_rkn m : tdh (rkn m) (rkn (S m)) = TDh (rkn m) (rkn (S m)).
Proof.
  unfold tdh. destruct (Nat.leb_spec (code (rkn m)) (code (rkn (S m)))) as [_|H]; [reflexivity|].
  exfalso; destruct m; cbn in H; lia.
Qed.

Lemma rkn_inj a b : rkn a = rkn b -> a = b.
Proof. destruct a, b; cbn; intros H; try discriminate H; [reflexivity | injection H; auto]. Qed.

Section Proofs.
Variable otk last : bool.
Variable I : info.
Variable sent : list smsg.
Variable leaks : list (spec * side).

Notation t_root := (t_root otk).
Notation t_ck := (t_ck otk).
Notation t_mk := (t_mk otk).
Notation stored := (stored otk last).

(* terms of different kinds *)
Lemma root_inj a b : t_root a = t_root b -> a = b.
Proof.
  destruct a, b; cbn [Secrecy.t_root]; intros H.
  - reflexivity.
  - exfalso. injection H. intros _ E _. discriminate E.
  - exfalso. injection H. intros _ E _. discriminate E.
  - rewrite !tdh_rkn in H. injection H. intros. f_equal. now apply rkn_inj.
Qed.
Lemma root_not_ck a k i : t_root a <> t_ck k i.
Proof. destruct a, i; cbn [Secrecy.t_root Secrecy.t_ck]; intros H; try discriminate H. Qed.
Lemma root_not_mk a k i f l : t_root a <> t_mk k i f l.
Proof.
  unfold Secrecy.t_mk.
  destruct a; cbn [Secrecy.t_root]; intros H; injection H; intros; discriminate.
Qed.
Lemma ck_inj k k' i i' : k <> 0%nat -> k' <> 0%nat -> t_ck k i = t_ck k' i' -> k = k' /\ i = i'.
Proof.
  intros Hk Hk'. revert i'. induction i as [|i IH]; intros i'; destruct i'; cbn [Secrecy.t_ck]; intros H.
  - destruct k; [congruence|]. destruct k'; [congruence|]. rewrite !Nat.sub_succ, !Nat.sub_0_r in H.
    injection H. intros E _. apply root_inj in E. split; congruence.
  - discriminate H.
  - discriminate H.
  - injection H. intros E. apply IH in E. destruct E; split; congruence.
Qed.
Lemma ck_not_mk a j k i f l : t_ck a j <> t_mk k i f l.
Proof.
  unfold Secrecy.t_mk.
  destruct j; cbn [Secrecy.t_ck]; intros H; [injection H; intros; discriminate | discriminate H].
Qed.
Lemma mk_inj k i f l k' i' f' l' : k <> 0%nat -> k' <> 0%nat -> t_mk k i f l = t_mk k' i' f' l' ->
  k = k' /\ i = i' /\ f = f' /\ l = l'.
Proof.
  unfold Secrecy.t_mk. intros Hk Hk' H. injection H. intros -> -> E. apply ck_inj in E; auto.
  destruct E; auto.
Qed.

(* every message was sent with a key of the sender's *)
Hypothesis sent_epoch : forall j m, nth_error sent j = Some m -> sm_epoch m <> 0%nat.

Definition L (t : term) : Prop := exists sp x, In (sp, x) leaks /\ stored sp x t.
Definition comp (p : name) : Prop := match p with NOther _ => True | _ => L (TPriv p) end.
Notation key_leak := (key_leak leaks).
Notation root_leak := (root_leak otk last leaks).
Notation chain_leak := (chain_leak otk last leaks).
Notation exposed := (exposed otk last leaks).

Definition tag_of (j : nat) (m : smsg) : term :=
  t_tag otk (sm_epoch m) (sm_idx m) (sm_from m) (t_body otk I j m).
Definition sent_tag (t : term) : Prop := exists j m, nth_error sent j = Some m /\ t = tag_of j m.

Fixpoint P (t : term) : Prop :=
  match t with
  | TConst _ | TPub _ => True
  | TPriv p => comp p
  | TDh p q => comp p \/ comp q
  | TCat a b => P a /\ P b
  | THkdf i s _ _ _ _ => L t \/ (P i /\ P s)
  | THmac k m => L t \/ (P k /\ P m)
  | TTake _ u => sent_tag t \/ P u
  | TEnc k _ pt => P k -> P pt
  | TText j => exists m, nth_error sent j = Some m /\ exposed (sm_epoch m) (sm_idx m)
  end.

Lemma P_tdh p q : P (tdh p q) <-> comp p \/ comp q.
Proof. unfold tdh. destruct (Nat.leb _ _); cbn [P]; tauto. Qed.

(* which private keys were copied *)
Lemma L_priv p : L (TPriv p) -> match p with
  | NIdent x => exists sp, In (sp, x) leaks
  | NSigned => exists sp, In (sp, SB) leaks
  | NOneTime => exists sp, In (sp, SB) leaks /\ otk = true /\ (sp_epoch sp SB = 0%nat \/ last = true)
  | NBase | NOther _ => False
  | NRatchet n => exists sp x, In (sp, x) leaks /\ sp_epoch sp x = n /\ n <> 0%nat
  end.
Proof.
  intros (sp & x & Hin & Hs). inversion Hs; subst; eauto.
  - exfalso. destruct (sp_epoch sp x); cbn [Secrecy.t_root] in H; discriminate H.
  - destruct (sp_epoch sp x) as [|n] eqn:E; [congruence|]. cbn [rkn]. exists sp, x. auto.
  - exfalso. destruct (sp_count sp x); cbn [Secrecy.t_ck] in H; discriminate H.
  - exfalso. destruct (sp_next sp k); cbn [Secrecy.t_ck] in H; discriminate H.
Qed.
Lemma comp_rkn k : comp (rkn k) -> key_leak k.
Proof.
  destruct k; cbn [rkn comp]; intros H; apply L_priv in H; cbn [Secrecy.key_leak].
  - exact H.
  - destruct H as (sp & x & H1 & H2 & _). eauto.
Qed.
Lemma rkn_comp k : key_leak k -> L (TPriv (rkn k)).
Proof.
  destruct k; cbn [rkn Secrecy.key_leak].
  - intros [sp H]. exists sp, SB. split; [exact H|]. now constructor.
  - intros (sp & x & H & E). exists sp, x. split; [exact H|].
    change (NRatchet (S k)) with (rkn (S k)). rewrite <- E. constructor. congruence.
Qed.

Lemma L_root n : L (t_root n) -> n <> 0%nat /\ exists sp x, In (sp, x) leaks /\ sp_epoch sp x = n.
Proof.
  intros (sp & x & Hin & Hs). inversion Hs; subst.
  1-3: destruct n; cbn [Secrecy.t_root] in *; discriminate.
  - apply root_inj in H. subst. eauto.
  - destruct n; cbn [Secrecy.t_root] in *; discriminate.
  - symmetry in H; now apply root_not_ck in H.
  - symmetry in H; now apply root_not_ck in H.
  - symmetry in H; now apply root_not_mk in H.
  - destruct n; cbn [Secrecy.t_root Secrecy.t_ck] in H; discriminate H.
Qed.
Lemma L_ck k i : k <> 0%nat -> L (t_ck k i) ->
  exists sp x, In (sp, x) leaks /\
    ((sp_epoch sp x = k /\ sp_count sp x = i) \/ (at_epoch sp x k /\ sp_next sp k = i) \/
     (k = 1%nat /\ i = 0%nat /\ x = SA /\ at_epoch sp SA 0)).
Proof.
  intros Hk (sp & x & Hin & Hs). exists sp, x. split; [exact Hin|].
  remember (t_ck k i) as t eqn:Et. destruct Hs.
  1-3: destruct i; cbn [Secrecy.t_ck] in Et; discriminate Et.
  - now apply root_not_ck in Et.
  - destruct i; cbn [Secrecy.t_ck] in Et; discriminate Et.
  - apply ck_inj in Et; [|assumption..]. left; exact Et.
  - apply ck_inj in Et; [|assumption..]. destruct Et as [-> <-]; auto.
  - symmetry in Et. now apply ck_not_mk in Et.
  - apply ck_inj in Et; auto. destruct Et as [<- <-]. subst x. auto 6.
Qed.
Lemma L_mk k i f l : k <> 0%nat -> L (t_mk k i f l) ->
  exists sp x, In (sp, x) leaks /\ at_epoch sp x k /\ (i < sp_next sp k)%nat /\ ~ read sp k i.
Proof.
  intros Hk (sp & x & Hin & Hs). exists sp, x. split; [exact Hin|].
  remember (t_mk k i f l) as t eqn:Et. destruct Hs.
  1-3: discriminate Et.
  - now apply root_not_mk in Et.
  - discriminate Et.
  - now apply ck_not_mk in Et.
  - now apply ck_not_mk in Et.
  - apply mk_inj in Et; auto. destruct Et as (<- & <- & _). auto.
  - now apply ck_not_mk in Et.
Qed.
(* nothing else under an HMAC is stored *)
Lemma L_hmac1 u : ~ L (THmac u (TConst [1])).
Proof.
  intros (sp & x & Hin & Hs). remember (THmac u (TConst [1])) as t eqn:Et. destruct Hs; try discriminate Et.
  - destruct (sp_epoch sp x); cbn [Secrecy.t_root] in Et; discriminate Et.
  - destruct (sp_count sp x); cbn [Secrecy.t_ck] in Et; discriminate Et.
  - destruct (sp_next sp k); cbn [Secrecy.t_ck] in Et; discriminate Et.
Qed.
Lemma L_hmac_mk k i f l m : ~ L (THmac (t_mk k i f l) m).
Proof.
  intros (sp & x & Hin & Hs). remember (THmac (t_mk k i f l) m) as t eqn:Et. destruct Hs; try discriminate Et.
  - destruct (sp_epoch sp x); cbn [Secrecy.t_root] in Et; discriminate Et.
  - destruct (sp_count sp x); cbn [Secrecy.t_ck] in Et; [discriminate Et|].
    injection Et. intros _ E. now apply ck_not_mk in E.
  - destruct (sp_next sp k0); cbn [Secrecy.t_ck] in Et; [discriminate Et|].
    injection Et. intros _ E. now apply ck_not_mk in E.
Qed.

(* ------------------------------------------------------------------------------------------ *)
(* P of a key of the conversation *)
Lemma P_km : P (t_km otk) -> first_leak otk last leaks.
Proof.
  unfold t_km. cbn [P]. intros (_ & _ & H2 & H3 & H4).
  rewrite P_tdh in H3. destruct H3 as [H3|H3]; [|now apply L_priv in H3].
  cbn [comp] in H3. apply L_priv in H3. destruct H3 as [sp Hsp]. exists sp. split; [exact Hsp|].
  destruct otk eqn:EO; [right | left; reflexivity].
  rewrite P_tdh in H4. destruct H4 as [H4|H4]; [|now apply L_priv in H4].
  cbn [comp] in H4. apply L_priv in H4. destruct H4 as (sp' & Hin & _ & Hor). eauto.
Qed.
Lemma P_root k : P (t_root k) -> root_leak k.
Proof.
  induction k as [|k IH]; intros H.
  - cbn [Secrecy.t_root P] in H. destruct H as [H|[H _]].
    + change (L (t_root 0)) in H. apply L_root in H. now destruct H.
    + constructor. now apply P_km.
  - change (L (t_root (S k)) \/ (P (tdh (rkn k) (rkn (S k))) /\ P (t_root k))) in H. destruct H as [H|[H1 H2]].
    + apply L_root in H. destruct H as [Hn (sp & x & Hin & E)]. rewrite <- E in Hn |- *. eapply rl_copied; eassumption.
    + apply rl_next; [now apply IH|]. rewrite P_tdh in H1. destruct H1; [left|right]; now apply comp_rkn.
Qed.
Lemma chain_leak_mono k i j : (i <= j)%nat -> chain_leak k i -> chain_leak k j.
Proof.
  intros Hle H. destruct H.
  - eapply cl_sender; eauto. lia.
  - eapply cl_receiver; eauto. lia.
  - eapply cl_first; eauto.
  - now apply cl_root.
Qed.
Lemma P_ck k i : k <> 0%nat -> P (t_ck k i) -> chain_leak k i.
Proof.
  intros Hk. assert (HL : forall i, L (t_ck k i) -> chain_leak k i).
  { intros j H. apply L_ck in H; [|exact Hk].
    destruct H as (sp & x & Hin & [[E1 E2]|[[E1 E2]|(E1 & E2 & E3 & E4)]]).
    - eapply cl_sender; eauto. lia.
    - eapply cl_receiver; eauto. lia.
    - subst x. eapply cl_first; eauto. }
  induction i as [|i IH]; intros H.
  - change (L (t_ck k 0) \/ (P (tdh (rkn (k - 1)) (rkn k)) /\ P (t_root (k - 1)))) in H.
    destruct H as [H|[H1 H2]]; [now apply HL|].
    apply cl_root; [now apply P_root|]. rewrite P_tdh in H1. destruct H1; [left|right]; now apply comp_rkn.
  - change (L (t_ck k (S i)) \/ (P (t_ck k i) /\ True)) in H. destruct H as [H|[H _]]; [now apply HL|].
    apply (chain_leak_mono k i); [lia | now apply IH].
Qed.
Lemma P_mk k i f l : k <> 0%nat -> P (t_mk k i f l) -> exposed k i.
Proof.
  intros Hk H.
  change (L (t_mk k i f l) \/ (L (THmac (t_ck k i) (TConst [1])) \/ (P (t_ck k i) /\ True)) /\ True) in H.
  destruct H as [H|[[H|[H _]] _]].
  - apply L_mk in H; [|exact Hk]. destruct H as (sp & x & H1 & H2 & H3 & H4). eapply ex_skipped; eauto.
  - now apply L_hmac1 in H.
  - constructor. now apply P_ck.
Qed.

(* ------------------------------------------------------------------------------------------ *)
(* P holds of the view and is kept by every computation *)
Lemma P_L t : L t -> P t.
Proof.
  intros H. destruct H as (sp & x & Hin & Hs).
  assert (HL : L t) by (exists sp, x; auto).
  destruct Hs; try exact HL.
  - destruct (sp_epoch sp x); left; exact HL.
  - destruct (sp_epoch sp x); exact HL.
  - destruct (sp_count sp x); left; exact HL.
  - destruct (sp_next sp k); left; exact HL.
  - left; exact HL.
  - left; exact HL.
Qed.
Lemma P_body j m : nth_error sent j = Some m -> P (t_body otk I j m).
Proof.
  intros H. unfold t_body. cbn [P]. split; [exact Logic.I|]. split; [exact Logic.I|]. split; [exact Logic.I|].
  intros HK. exists m. split; [exact H|]. revert HK. apply P_mk. eapply sent_epoch; eauto.
Qed.
Lemma P_whisper j m : nth_error sent j = Some m -> P (t_whisper otk I j m).
Proof.
  intros H. unfold t_whisper. cbn [P]. split; [now apply P_body|]. left. exists j, m. auto.
Qed.
Lemma P_wire j m : nth_error sent j = Some m -> P (t_wire otk I j m).
Proof.
  intros H. unfold t_wire. destruct (side_eqb _ _ && _); [|now apply P_whisper].
  cbn [P]. do 5 (split; [exact Logic.I|]). split; [now apply P_whisper | exact Logic.I].
Qed.

Lemma knows_P t : knows (view otk last I sent leaks) t -> P t.
Proof.
  induction 1.
  - destruct H; [now apply P_wire|]. apply P_L. exists sp, x. auto.
  - exact Logic.I.
  - exact Logic.I.
  - exact Logic.I.
  - apply P_tdh. left. exact IHknows.
  - cbn [P]. auto.
  - apply IHknows.
  - apply IHknows.
  - cbn [P]. auto.
  - cbn [P]. auto.
  - cbn [P]. auto.
  - cbn [P]. auto.
  - apply IHknows1. exact IHknows2.
Qed.

(* ------------------------------------------------------------------------------------------ *)
(* The other direction *)
Notation K := (knows (view otk last I sent leaks)).
Lemma L_K t : L t -> K t.
Proof. intros (sp & x & H1 & H2). apply k_in. eapply v_leak; eauto. Qed.
Lemma tdh_comm p q : tdh p q = tdh q p.
Proof.
  unfold tdh. destruct (Nat.leb_spec (code p) (code q)), (Nat.leb_spec (code q) (code p)); auto; try lia.
  assert (E : code p = code q) by lia. assert (p = q); [|congruence].
  destruct p as [[|]| | | | |], q as [[|]| | | | |]; cbn [code] in E; try reflexivity; try lia; f_equal; lia.
Qed.
Lemma K_dh2 p q : K (TPriv q) -> K (tdh p q).
Proof. intros H. rewrite tdh_comm. now apply k_dh. Qed.
Lemma K_step k : key_leak k \/ key_leak (S k) -> K (tdh (rkn k) (rkn (S k))).
Proof. intros [H|H]; [apply k_dh | apply K_dh2]; apply L_K; now apply rkn_comp. Qed.
Lemma K_root k : root_leak k -> K (t_root k).
Proof.
  induction 1.
  - destruct H as (sp & Hin & Hor). cbn [Secrecy.t_root]. apply k_hkdf; [|apply k_const].
    assert (KS : K (TPriv NSigned)). { apply L_K. exists sp, SB. split; [exact Hin|]. now constructor. }
    assert (KI : K (TPriv (NIdent SB))). { apply L_K. exists sp, SB. split; [exact Hin|]. constructor. }
    unfold t_km. apply k_cat; [apply k_const|]. apply k_cat; [now apply k_dh|].
    apply k_cat; [now apply k_dh|]. apply k_cat; [now apply k_dh|].
    destruct otk eqn:EO; [|apply k_const]. destruct Hor as [Hor|(sp' & Hin' & Hor)]; [discriminate Hor|].
    apply k_dh. apply k_in. eapply v_leak; [exact Hin'|]. now constructor.
  - apply L_K. exists sp, x. split; [exact H|]. now constructor.
  - cbn [Secrecy.t_root]. apply k_hkdf; [now apply K_step | exact IHroot_leak].
Qed.
Lemma K_ck_up k i d : K (t_ck k i) -> K (t_ck k (d + i)).
Proof. intros H. induction d; [exact H|]. cbn [Secrecy.t_ck Nat.add]. apply k_hmac; [exact IHd | apply k_const]. Qed.
Lemma K_ck_le k i j : (i <= j)%nat -> K (t_ck k i) -> K (t_ck k j).
Proof. intros Hle H. replace j with ((j - i) + i)%nat by lia. now apply K_ck_up. Qed.
Lemma K_ck k i : k <> 0%nat -> chain_leak k i -> K (t_ck k i).
Proof.
  intros Hk H. destruct H.
  - eapply K_ck_le; [eassumption|]. apply L_K. exists sp, x. split; [exact H|]. subst k. now constructor.
  - eapply K_ck_le; [eassumption|]. apply L_K. exists sp, x. split; [exact H|]. now constructor.
  - apply (K_ck_le k 0); [lia|]. apply L_K. exists sp, SA. split; [assumption|]. subst k. now constructor.
  - apply (K_ck_le k 0); [lia|]. cbn [Secrecy.t_ck]. apply k_hkdf; [|now apply K_root].
    destruct k; [congruence|]. rewrite Nat.sub_succ, Nat.sub_0_r in *. now apply K_step.
Qed.
Lemma K_mk k i f l : k <> 0%nat -> In (f, l) [(0, 32); (32, 32); (64, 16)]%nat -> exposed k i -> K (t_mk k i f l).
Proof.
  intros Hk Hf H. destruct H.
  - unfold Secrecy.t_mk. apply k_hkdf; [|apply k_const]. apply k_hmac; [now apply K_ck | apply k_const].
  - apply L_K. exists sp, x. split; [exact H|]. now constructor.
Qed.
Lemma K_body j m : nth_error sent j = Some m -> K (t_body otk I j m).
Proof.
  intros H. assert (HW : K (t_wire otk I j m)) by (apply k_in; now constructor).
  assert (HW' : K (t_whisper otk I j m)).
  { unfold t_wire in HW. destruct (side_eqb _ _ && _); [|exact HW].
    do 5 apply k_right in HW. now apply k_left in HW. }
  unfold t_whisper in HW'. now apply k_left in HW'.
Qed.
Lemma K_text j m : nth_error sent j = Some m -> exposed (sm_epoch m) (sm_idx m) -> K (TText j).
Proof.
  intros H HE. assert (HB := K_body j m H). unfold t_body in HB. do 3 apply k_right in HB.
  eapply k_dec; [exact HB|]. apply K_mk; [|now left | exact HE]. eapply sent_epoch; eauto.
Qed.

Theorem secrecy_exact j m : nth_error sent j = Some m ->
  (K (TText j) <-> exposed (sm_epoch m) (sm_idx m)).
Proof.
  intros H. split; [|now apply K_text]. intros HK. apply knows_P in HK. cbn [P] in HK.
  destruct HK as (m' & E & X). congruence.
Qed.

(* keys *)
Theorem key_exact k i f l : k <> 0%nat -> In (f, l) [(0, 32); (32, 32); (64, 16)]%nat ->
  (K (t_mk k i f l) <-> exposed k i).
Proof.
  intros Hk Hf. split; [|now apply K_mk]. intros HK. apply knows_P in HK. eapply P_mk; eauto.
Qed.

(* a tag can be had only of a message that was sent, or with an exposed key *)
Theorem tag_exact k i from body : k <> 0%nat ->
  K (t_tag otk k i from body) ->
  exposed k i \/
  exists j m, nth_error sent j = Some m /\ sm_epoch m = k /\ sm_idx m = i /\ sm_from m = from /\
    body = t_body otk I j m.
Proof.
  intros Hk H. apply knows_P in H. unfold t_tag in H.
  change (sent_tag (t_tag otk k i from body) \/
          (L (THmac (t_mk k i 32 32) (t_tagged from body)) \/
           (P (t_mk k i 32 32) /\ P (t_tagged from body)))) in H.
  destruct H as [(j & m & Hj & E)|[H|[H _]]].
  - right. exists j, m. split; [exact Hj|]. unfold tag_of, t_tag, t_mac in E. injection E.
    unfold t_tagged. intros EB _ EF E1.
    assert (Hm : sm_epoch m <> 0%nat) by (eapply sent_epoch; eauto).
    apply (ck_inj k (sm_epoch m)) in E1; auto. destruct E1 as [<- <-].
    destruct (sm_from m), from; try discriminate EF; auto.
  - exfalso. now apply L_hmac_mk in H.
  - left. eapply P_mk; eauto.
Qed.
End Proofs.
