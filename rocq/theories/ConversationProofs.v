From Coq Require Import ZArith List Lia Bool.
From Verif Require Import Bytes Res Wire WireProofs Crypto Cbc CbcProofs Messages MessagesProofs
  Session SessionProofs Builder Conversation.
Import ListNotations.
Open Scope Z_scope.

(* ------------------------------------------------------------------------------------------ *)
(* The chains a party at key n keeps: the five most recent keys of the other side below n *)
Definition win (n : nat) : list nat :=
  rev (map (fun d => n - 1 - 2 * d)%nat (seq 0 (Nat.min 5 ((n + 1) / 2)))).

Definition add5 {A} (l : list A) (x : A) : list A :=
  let l' := l ++ [x] in if Nat.ltb 5 (length l') then tl l' else l'.

Lemma win_length n : length (win n) = Nat.min 5 ((n + 1) / 2).
Proof. unfold win. now rewrite rev_length, map_length, seq_length. Qed.

Lemma half_SS n : ((S (S n) + 1) / 2 = S ((n + 1) / 2))%nat.
Proof.
  replace (S (S n) + 1)%nat with ((n + 1) + 1 * 2)%nat by lia. rewrite Nat.div_add by lia. lia.
Qed.

Lemma win_step n : win (S (S n)) = add5 (win n) (S n).
Proof.
  unfold add5. rewrite app_length, win_length. cbn [length].
  unfold win at 1. rewrite half_SS.
  set (h := ((n + 1) / 2)%nat).
  assert (Hm : forall c, map (fun d => (S (S n) - 1 - 2 * d)%nat) (seq 0 (S c))
               = S n :: map (fun d => (n - 1 - 2 * d)%nat) (seq 0 c)).
  { intros c. cbn [seq map]. f_equal.
    rewrite <- seq_shift, map_map. apply map_ext. intros d. lia. }
  destruct (le_lt_dec 5 h) as [H|H].
  - replace (Nat.min 5 (S h)) with 5%nat by lia. replace (Nat.min 5 h) with 5%nat by lia.
    cbn [Nat.add Nat.ltb Nat.leb]. rewrite (Hm 4%nat).
    unfold win. fold h. replace (Nat.min 5 h) with 5%nat by lia.
    change (seq 0 5) with (seq 0 4 ++ [4%nat]). rewrite map_app, rev_app_distr. cbn [map rev app tl].
    reflexivity.
  - replace (Nat.min 5 (S h)) with (S h) by lia.
    replace (Nat.ltb 5 (Nat.min 5 h + 1)) with false.
    + rewrite Hm. cbn [rev]. unfold win. fold h. replace (Nat.min 5 h) with h by lia. reflexivity.
    + symmetry. apply Nat.ltb_ge. lia.
Qed.

Lemma in_win n k :
  In k (win n) <-> exists d, (d < 5)%nat /\ (n = k + 1 + 2 * d)%nat.
Proof.
  unfold win. rewrite <- in_rev, in_map_iff. split.
  - intros (d & E & H). apply in_seq in H.
    assert (2 * d + 1 <= n)%nat.
    { assert (d < (n + 1) / 2)%nat by lia.
      pose proof (Nat.div_mod (n + 1) 2 ltac:(lia)). pose proof (Nat.mod_upper_bound (n + 1) 2 ltac:(lia)). lia. }
    exists d. lia.
  - intros (d & H & E). exists d. split; [lia|]. apply in_seq.
    assert (d < (n + 1) / 2)%nat; [|lia].
    pose proof (Nat.div_mod (n + 1) 2 ltac:(lia)). pose proof (Nat.mod_upper_bound (n + 1) 2 ltac:(lia)). lia.
Qed.

Lemma NoDup_win n : NoDup (win n).
Proof.
  unfold win. apply NoDup_rev.
  assert (Hb : forall d, In d (seq 0 (Nat.min 5 ((n + 1) / 2))) -> (2 * d + 1 <= n)%nat).
  { intros d H. apply in_seq in H. assert (d < (n + 1) / 2)%nat by lia.
    pose proof (Nat.div_mod (n + 1) 2 ltac:(lia)). pose proof (Nat.mod_upper_bound (n + 1) 2 ltac:(lia)). lia. }
  revert Hb. generalize (seq_NoDup (Nat.min 5 ((n + 1) / 2)) 0).
  generalize (seq 0 (Nat.min 5 ((n + 1) / 2))) as l.
  induction 1 as [|d l Hn Hd IH]; intros Hb; [constructor|].
  cbn [map]. constructor.
  - intros H. apply in_map_iff in H. destruct H as (d' & E & H').
    pose proof (Hb d (or_introl eq_refl)). pose proof (Hb d' (or_intror H')).
    assert (d = d') by lia. subst. auto.
  - apply IH. intros d' H'. apply Hb. now right.
Qed.

Lemma addReceiverChain_add5 l rk c : addReceiverChain l rk c = add5 l (mkChain rk [] (Some c) []).
Proof. reflexivity. Qed.

Lemma Forall2_len {A B} (R : A -> B -> Prop) l l' : Forall2 R l l' -> length l = length l'.
Proof. induction 1; simpl; congruence. Qed.

Lemma Forall2_add5 {A B} (R : A -> B -> Prop) l l' x y :
  Forall2 R l l' -> R x y -> Forall2 R (add5 l x) (add5 l' y).
Proof.
  intros H Hx. unfold add5.
  assert (H2 : Forall2 R (l ++ [x]) (l' ++ [y])) by (apply Forall2_app; auto).
  pose proof (Forall2_len _ _ _ H2) as E. rewrite <- E.
  destruct (Nat.ltb 5 (length (l ++ [x]))); auto.
  destruct H2; simpl; auto.
Qed.

(* ------------------------------------------------------------------------------------------ *)
Section P.
Variable C : crypto.
Hypothesis OK : crypto_ok C.
Variable st : setup.
Hypothesis SO : setup_ok C st.

(* one ratchet key of the conversation: private key, root key and first chain key *)
Record ep : Type := mkEp { e_priv : bytes; e_root : bytes; e_ck : ckey }.
Definition ep_d : ep := mkEp [] [] (mkCk 0 []).
Definition E (eps : list ep) (n : nat) : ep := nth n eps ep_d.
Definition pubn (eps : list ep) (n : nat) : bytes := basepub C (e_priv (E eps n)).
Definition pubs (eps : list ep) : list bytes := map (fun e => basepub C (e_priv e)) eps.

Definition km : bytes :=
  diversifier ++ dh C (st_spk st) (idpub st SA) ++ dh C (idpriv st SB) (base_pub C st)
    ++ dh C (st_spk st) (base_pub C st)
    ++ match st_otk st with Some k => dh C k (base_pub C st) | None => [] end.
Definition root0 : bytes := fst (calculateDerivedKeys C km).
Definition ck0 : ckey := snd (calculateDerivedKeys C km).

Definition ep_ok (e : ep) : Prop :=
  length (e_priv e) = 32%nat /\ length (e_root e) = 32%nat /\
  length (ck_key (e_ck e)) = 32%nat /\ ck_index (e_ck e) = 0.

Record wf_eps (eps : list ep) : Prop := {
  we_ok : Forall ep_ok eps;
  we_next : forall n, (S n < length eps)%nat ->
     createChain C (e_root (E eps n)) (pubn eps n) (e_priv (E eps (S n)))
     = (e_root (E eps (S n)), e_ck (E eps (S n)));
  we_0 : E eps 0 = mkEp (st_spk st) root0 ck0;
  we_nodup : NoDup (pubs eps) }.

Lemma E_ok eps n : wf_eps eps -> (n < length eps)%nat -> ep_ok (E eps n).
Proof.
  intros W H. pose proof (we_ok _ W) as F. rewrite Forall_forall in F. apply F.
  unfold E. now apply nth_In.
Qed.

Lemma pubn_length eps n : length (pubn eps n) = 32%nat.
Proof. apply (basepub_length C OK). Qed.

Lemma pubn_inj eps a b : wf_eps eps -> (a < length eps)%nat -> (b < length eps)%nat ->
  pubn eps a = pubn eps b -> a = b.
Proof.
  intros W Ha Hb H. pose proof (we_nodup _ W) as N.
  eapply (NoDup_nth (pubs eps) (basepub C (e_priv ep_d))); eauto.
  - unfold pubs. now rewrite map_length.
  - unfold pubs. now rewrite map_length.
  - unfold pubs. rewrite !(map_nth (fun e => basepub C (e_priv e))). exact H.
Qed.

Lemma createChain_sym root a b :
  createChain C root (basepub C a) b = createChain C root (basepub C b) a.
Proof. unfold createChain. now rewrite (dh_comm C OK). Qed.

Lemma E_app1 eps e n : (n < length eps)%nat -> E (eps ++ [e]) n = E eps n.
Proof. intros H. unfold E. now apply app_nth1. Qed.
Lemma E_app2 eps e : E (eps ++ [e]) (length eps) = e.
Proof. unfold E. rewrite app_nth2, Nat.sub_diag; auto. Qed.

(* ---- states ---- *)
(* a chain for receiving has no private key; the one added under B's signed prekey holds the first
   key of A's own first chain (ratchet.go 200) and is never used *)
Definition extra_ok (eps : list ep) (k : nat) (c : chain) : Prop :=
  ch_rpriv c = [] /\ (k = 0%nat -> ch_ck c = Some (e_ck (E eps 1)) /\ ch_mks c = []).
Definition chain_ok (eps : list ep) (nxt : nat -> nat) (got : nat -> nat -> Prop) (k : nat) (c : chain) : Prop :=
  ch_rpub c = pubn eps k /\
  (k <> 0%nat ->
     ch_ck c = Some (ckn C (e_ck (E eps k)) (nxt k)) /\
     exists sk, ch_mks c = mks_of C (e_ck (E eps k)) sk /\ NoDup sk /\
       forall i, In i sk <-> (i < nxt k)%nat /\ ~ got k i) /\
  extra_ok eps k c.

Definition the_pending : pending := mkPending (st_pkid st) (st_spkid st) (key_ser (base_pub C st)).

Record st_ok (eps : list ep) (n cnt : nat) (nxt : nat -> nat) (got : nat -> nat -> Prop)
    (x : side) (s : sstate) : Prop := {
  so_version : s_version s = 3;
  so_local : s_local s = idpub st x;
  so_remote : s_remote s = idpub st (other x);
  so_root : s_root s = e_root (E eps n);
  so_sender : s_sender s = Some (mkChain (pubn eps n) (e_priv (E eps n))
                                   (Some (ckn C (e_ck (E eps n)) cnt)) []);
  so_recv : Forall2 (chain_ok eps nxt got) (win n) (s_recv s);
  so_prev : 0 <= s_prev s < 2 ^ 32;
  so_pending : s_pending s = match x with
                             | SA => if Nat.eqb n 1 then Some the_pending else None
                             | SB => None end;
  so_lreg : s_lreg s = w_reg (st_w st x);
  so_base : s_base s = key_ser (base_pub C st) }.

Lemma chain_ok_frame eps nxt got nxt' got' k c :
  (k <> 0%nat -> nxt' k = nxt k /\ forall i, got' k i <-> got k i) ->
  chain_ok eps nxt got k c -> chain_ok eps nxt' got' k c.
Proof.
  intros F [Hr [H HD]]. split; auto. split; auto. intros Hk. destruct (F Hk) as [-> G]. destruct (H Hk) as (Hc & sk & Hm & Hd & Hi).
  split; auto. exists sk. split; [|split]; auto. intros i. rewrite Hi, G. tauto.
Qed.

Lemma Forall2_mono_in {A B} (R R' : A -> B -> Prop) l l' :
  (forall a b, In a l -> R a b -> R' a b) -> Forall2 R l l' -> Forall2 R' l l'.
Proof.
  intros H F. induction F; constructor.
  - apply H; [now left|auto].
  - apply IHF. intros. apply H; [now right|auto].
Qed.

Lemma st_ok_frame eps n cnt nxt got nxt' got' x s :
  (forall k, In k (win n) -> k <> 0%nat -> nxt' k = nxt k /\ forall i, got' k i <-> got k i) ->
  st_ok eps n cnt nxt got x s -> st_ok eps n cnt nxt' got' x s.
Proof.
  intros F [H1 H2 H3 H4 H5 H6 H7 H8 H9 H10]. constructor; auto.
  eapply Forall2_mono_in; [|exact H6]. intros k c Hk. apply chain_ok_frame. auto.
Qed.

Lemma chain_ok_ext eps e nxt got k c : (k < length eps)%nat -> (1 < length eps)%nat ->
  chain_ok eps nxt got k c -> chain_ok (eps ++ [e]) nxt got k c.
Proof.
  intros H H1 [Hr [Hk HD]]. unfold chain_ok, extra_ok, pubn in *. rewrite !E_app1 by auto.
  split; [exact Hr|]. split; [exact Hk|exact HD].
Qed.

Lemma win_lt n k : In k (win n) -> (k < n)%nat.
Proof. rewrite in_win. intros (d & H & HE). lia. Qed.

Lemma st_ok_ext eps e n cnt nxt got x s : (n < length eps)%nat -> (1 < length eps)%nat ->
  st_ok eps n cnt nxt got x s -> st_ok (eps ++ [e]) n cnt nxt got x s.
Proof.
  intros H HL [H1 H2 H3 H4 H5 H6 H7 H8 H9 H10]. constructor; auto.
  - now rewrite E_app1.
  - unfold pubn. now rewrite E_app1.
  - eapply Forall2_mono_in; [|exact H6]. intros k c Hk. apply chain_ok_ext; auto. apply win_lt in Hk. lia.
Qed.

Lemma idpub_len x : length (idpub st x) = 32%nat.
Proof. destruct (so_ident _ _ SO x) as [-> _]. apply (basepub_length C OK). Qed.

(* finding and updating the chain of key k *)
Lemma find_rel eps (R : nat -> chain -> Prop) ks l k :
  wf_eps eps -> (forall k c, R k c -> ch_rpub c = pubn eps k) ->
  Forall2 R ks l -> (forall k', In k' ks -> (k' < length eps)%nat) -> (k < length eps)%nat -> In k ks ->
  exists rc, find_chain (pubn eps k) l = Some rc /\ R k rc.
Proof.
  intros W HR F Hb Hk. induction F as [|k' c ks l HRc F IH]; intros Hin; [destruct Hin|].
  cbn [find_chain]. rewrite (HR _ _ HRc).
  destruct (beq (pubn eps k) (pubn eps k')) eqn:B.
  - apply beq_eq in B. apply pubn_inj in B; auto; [|apply Hb; now left]. subst k'. eauto.
  - apply beq_neq in B. destruct Hin as [->|Hin]; [congruence|].
    apply IH; auto. intros. apply Hb. now right.
Qed.

Lemma find_rel_none eps (R : nat -> chain -> Prop) ks l k :
  wf_eps eps -> (forall k c, R k c -> ch_rpub c = pubn eps k) ->
  Forall2 R ks l -> (forall k', In k' ks -> (k' < length eps)%nat) -> (k < length eps)%nat -> ~ In k ks ->
  find_chain (pubn eps k) l = None.
Proof.
  intros W HR F Hb Hk. induction F as [|k' c ks l HRc F IH]; intros Hin; [reflexivity|].
  cbn [find_chain]. rewrite (HR _ _ HRc).
  destruct (beq (pubn eps k) (pubn eps k')) eqn:B.
  - apply beq_eq in B. apply pubn_inj in B; auto; [|apply Hb; now left]. subst k'. exfalso. apply Hin. now left.
  - apply IH; auto; intros; [apply Hb; now right|]. intros Hx. apply Hin. now right.
Qed.

Lemma upd_rel eps (R R' : nat -> chain -> Prop) ks l k f :
  wf_eps eps -> (forall k c, R k c -> ch_rpub c = pubn eps k) ->
  Forall2 R ks l -> NoDup ks -> (forall k', In k' ks -> (k' < length eps)%nat) -> (k < length eps)%nat ->
  (forall c, find_chain (pubn eps k) l = Some c -> R k c -> R' k (f c)) ->
  (forall k' c, k' <> k -> In k' ks -> R k' c -> R' k' c) ->
  (In k ks) ->
  Forall2 R' ks (upd_chain (pubn eps k) f l).
Proof.
  intros W HR F. induction F as [|k' c ks l HRc F IH]; intros ND Hb Hk Hf Ho Hin; [constructor|].
  cbn [upd_chain find_chain] in *. rewrite (HR _ _ HRc) in *. inversion ND; subst.
  destruct (beq (pubn eps k) (pubn eps k')) eqn:B.
  - apply beq_eq in B. apply pubn_inj in B; auto; [|apply Hb; now left]. subst k'.
    constructor; [apply Hf; auto|].
    eapply Forall2_mono_in; [|exact F]. intros a b Ha. apply Ho; [congruence|now right].
  - apply beq_neq in B. destruct Hin as [->|Hin]; [congruence|].
    constructor.
    + apply Ho; [intros ->; apply B; reflexivity|now left|exact HRc].
    + apply IH; auto; intros; [apply Hb; now right|apply Ho; auto; now right].
Qed.

(* ---- decrypting a genuine message ---- *)
Definition upd_got (got : nat -> nat -> Prop) (k i : nat) : nat -> nat -> Prop :=
  fun k' i' => got k' i' \/ (k' = k /\ i' = i).

Definition gen_msg eps k i prev pt x :=
  chain_msg C (pubn eps k) (e_ck (E eps k)) i prev pt (idpub st (other x)) (idpub st x).

Lemma seq_split_in a n i : In i (seq a n) <-> (a <= i < a + n)%nat.
Proof. apply in_seq. Qed.

Lemma core_known eps n cnt nxt got x s k i prev pt rnd :
  wf_eps eps -> (n < length eps)%nat -> st_ok eps n cnt nxt got x s ->
  In k (win n) -> k <> 0%nat -> (x = SA -> n <> 1%nat) -> ~ got k i ->
  (forall i', got k i' -> (i' < nxt k)%nat) ->
  (i <= nxt k + 2000)%nat -> Z.of_nat i < 2 ^ 32 -> Z.of_nat (nxt k) < 2 ^ 32 -> wfb pt ->
  exists s', ss_decrypt C s (gen_msg eps k i prev pt x) rnd = (Ok pt, s') /\
    st_ok eps n cnt (upd_nat nxt k (Nat.max (nxt k) (S i))) (upd_got got k i) x s'.
Proof.
  intros W Hn S Hk Hk0 Hx Hg Hgn Hw Hi Hnx Hpt.
  assert (Hkn : (k < n)%nat) by now apply win_lt.
  assert (Hwb : forall k', In k' (win n) -> (k' < length eps)%nat).
  { intros k' H'. apply win_lt in H'. lia. }
  assert (HR : forall k c, chain_ok eps nxt got k c -> ch_rpub c = pubn eps k) by (intros ? ? [? ?]; auto).
  destruct (find_rel eps (chain_ok eps nxt got) (win n) (s_recv s) k) as (rc & Hf & Hrc); auto.
  { apply (so_recv _ _ _ _ _ _ _ S). }
  pose proof Hrc as [_ [Hrc' HrD]]. destruct (Hrc' Hk0) as (Hck & sk & Hmks & Hnd & Hsk).
  pose proof (E_ok eps k W ltac:(lia)) as (_ & _ & Hel & He0).
  assert (HL : length (ck_key (ckn C (e_ck (E eps k)) (nxt k))) = 32%nat) by now apply ckn_key_length.
  pose proof (gocck_known C s (pubn eps k) rnd rc _ Hf Hck HL) as G1.
  assert (Hpend : s_pending s = None).
  { rewrite (so_pending _ _ _ _ _ _ _ S). destruct x; auto.
    destruct (Nat.eqb_spec n 1); auto. exfalso. now apply Hx. }
  assert (Hfin : forall f mk,
     getOrCreateMessageKeys C s (pubn eps k) (ckn C (e_ck (E eps k)) (nxt k)) (Z.of_nat i)
       = (Ok mk, with_recv s (upd_chain (pubn eps k) f (s_recv s))) ->
     mk = getMessageKeys C (ckn C (e_ck (E eps k)) i) ->
     (chain_ok eps (upd_nat nxt k (Nat.max (nxt k) (Datatypes.S i))) (upd_got got k i) k (f rc)) ->
     exists s', ss_decrypt C s (gen_msg eps k i prev pt x) rnd = (Ok pt, s') /\
       st_ok eps n cnt (upd_nat nxt k (Nat.max (nxt k) (Datatypes.S i))) (upd_got got k i) x s').
  { intros f mk G2 -> Hc'.
    set (s2 := with_recv s (upd_chain (pubn eps k) f (s_recv s))) in *.
    exists (with_pending s2 None). split.
    - unfold gen_msg.
      replace (idpub st (other x)) with (s_remote s2) by apply (so_remote _ _ _ _ _ _ _ S).
      replace (idpub st x) with (s_local s2) by apply (so_local _ _ _ _ _ _ _ S).
      eapply ss_decrypt_genuine; eauto.
      + apply (so_sender _ _ _ _ _ _ _ S).
      + unfold getSessionVersion. now rewrite (so_version _ _ _ _ _ _ _ S).
      + change (s_remote s2) with (s_remote s). rewrite (so_remote _ _ _ _ _ _ _ S). apply idpub_len.
      + change (s_local s2) with (s_local s). rewrite (so_local _ _ _ _ _ _ _ S). apply idpub_len.
    - destruct S as [H1 H2 H3 H4 H5 H6 H7 H8 H9 H10]. constructor; auto.
      + cbn [s_recv with_pending with_recv s2].
        eapply upd_rel with (R := chain_ok eps nxt got);
          [exact W|exact HR|exact H6|apply NoDup_win|exact Hwb|lia| | |exact Hk].
        * intros c Hc _. rewrite Hf in Hc. injection Hc as <-. exact Hc'.
        * intros k' c Hne _. apply chain_ok_frame. intros _. unfold upd_nat, upd_got.
          destruct (Nat.eqb_spec k k'); [congruence|]. split; auto. intros i'. tauto.
      + change (s_pending (with_pending s2 None)) with (@None pending). now rewrite <- H8, Hpend. }
  destruct (le_lt_dec (nxt k) i) as [Hle|Hlt].
  - (* at or beyond the end of what has been seen *)
    eapply Hfin.
    + apply (gocmk_ahead C s (pubn eps k) rc (e_ck (E eps k)) (nxt k) i); auto.
    + reflexivity.
    + split; [exact (proj1 Hrc)|]. split; [|split; [exact (proj1 HrD)|intros; contradiction]]. intros _. cbn [ch_ck ch_mks].
      unfold upd_nat. rewrite Nat.eqb_refl. replace (Nat.max (nxt k) (Datatypes.S i)) with (Datatypes.S i) by lia.
      split; [reflexivity|].
      exists (sk ++ seq (nxt k) (i - nxt k)). rewrite Hmks. unfold mks_of. rewrite map_app.
      split; [reflexivity|]. split.
      * assert (forall a b : list nat, NoDup a -> NoDup b -> (forall z, In z a -> ~ In z b) -> NoDup (a ++ b)) as NA.
        { clear. induction a as [|z a IH]; intros b Ha Hb Hd; simpl; auto. inversion Ha; subst. constructor.
          - rewrite in_app_iff. intros [?|?]; auto. apply (Hd z); [now left|auto].
          - apply IH; auto. intros y Hy. apply Hd. now right. }
        apply NA; auto using seq_NoDup. intros z Hz. apply Hsk in Hz. rewrite in_seq. lia.
      * intros i'. rewrite in_app_iff, Hsk, in_seq. unfold upd_got. split.
        -- intros [[Ha Hb]|Ha].
           ++ split; [lia|]. intros [?|[_ ->]]; [auto|lia].
           ++ split; [lia|]. intros [Hx'|[_ ->]]; [apply Hgn in Hx'; lia|lia].
        -- intros [Ha Hb]. destruct (le_lt_dec (nxt k) i') as [Hc|Hc].
           ++ right. assert (i' <> i) by (intros ->; apply Hb; auto). lia.
           ++ left. split; auto.
  - (* a skipped one *)
    assert (Hin : In i sk) by (apply Hsk; auto).
    destruct (take_mk_some C (e_ck (E eps k)) sk i) as (l1 & l2 & Esk & Ht); auto.
    { intros y Hy. apply Hsk in Hy. lia. }
    eapply Hfin.
    + apply (gocmk_behind C s (pubn eps k) rc (e_ck (E eps k)) (nxt k) i); auto. rewrite Hmks. exact Ht.
    + reflexivity.
    + split; [exact (proj1 Hrc)|]. split; [|split; [exact (proj1 HrD)|intros; contradiction]]. intros _. cbn [ch_ck ch_mks].
      unfold upd_nat. rewrite Nat.eqb_refl. replace (Nat.max (nxt k) (Datatypes.S i)) with (nxt k) by lia.
      split; [exact Hck|]. exists (l1 ++ l2). split; [reflexivity|].
      rewrite Esk in Hnd. split; [now apply NoDup_remove_1 in Hnd|].
      intros i'. assert (Hi' : In i' (l1 ++ l2) <-> In i' sk /\ i' <> i).
      { rewrite Esk, !in_app_iff. cbn [In]. apply NoDup_remove_2 in Hnd. rewrite in_app_iff in Hnd. split.
        - intros Ha. split; [tauto|]. intros ->. tauto.
        - intros [[Ha|[Ha|Ha]] Hb]; auto. congruence. }
      rewrite Hi', Hsk. unfold upd_got. split.
      * intros [[Ha Hb] Hc]. split; auto. intros [?|[_ ?]]; auto.
      * intros [Ha Hb]. repeat split; auto.
Qed.

Lemma core_new eps n cnt nxt got x s i prev pt rnd :
  wf_eps eps -> length eps = S (S n) -> st_ok eps n cnt nxt got x s ->
  length rnd = 32%nat -> ~ In (basepub C (clamp rnd)) (pubs eps) ->
  nxt (S n) = 0%nat -> (forall i', ~ got (S n) i') ->
  (i <= 2000)%nat -> Z.of_nat i < 2 ^ 32 -> Z.of_nat cnt < 2 ^ 32 -> wfb pt ->
  exists e s', ss_decrypt C s (gen_msg eps (S n) i prev pt x) rnd = (Ok pt, s') /\
    e_priv e = clamp rnd /\ wf_eps (eps ++ [e]) /\
    st_ok (eps ++ [e]) (S (S n)) 0 (upd_nat nxt (S n) (S i)) (upd_got got (S n) i) x s'.
Proof.
  intros W Hlen S Hrnd Hfresh Hnx Hgot Hi Hi32 Hcnt Hpt.
  set (k := Datatypes.S n) in *.
  pose proof (E_ok eps n W ltac:(lia)) as (Hpl & Hrl & Hcl & Hc0).
  pose proof (E_ok eps k W ltac:(lia)) as (Hpl' & Hrl' & Hcl' & Hc0').
  assert (Hf : find_chain (pubn eps k) (s_recv s) = None).
  { apply find_rel_none with (R := chain_ok eps nxt got) (ks := win n); auto.
    - intros k0 c0 H0. exact (proj1 H0).
    - apply (so_recv _ _ _ _ _ _ _ S).
    - intros k' H'. apply win_lt in H'. lia.
    - lia.
    - intros H'. apply win_lt in H'. lia. }
  assert (HckL : length (ck_key (ckn C (e_ck (E eps n)) cnt)) = 32%nat) by now apply ckn_key_length.
  pose proof (gocck_new C s (pubn eps k) rnd
    (mkChain (pubn eps n) (e_priv (E eps n)) (Some (ckn C (e_ck (E eps n)) cnt)) []) (ckn C (e_ck (E eps n)) cnt) Hf) as G1.
  rewrite (so_root _ _ _ _ _ _ _ S) in G1.
  specialize (G1 Hrl (so_sender _ _ _ _ _ _ _ S) Hpl (pubn_length eps n) eq_refl HckL).
  cbn [ch_rpriv] in G1.
  assert (HCC : createChain C (e_root (E eps n)) (pubn eps k) (e_priv (E eps n))
                = (e_root (E eps k), e_ck (E eps k))).
  { unfold pubn. rewrite createChain_sym. apply (we_next _ W n). lia. }
  rewrite HCC in G1.
  destruct (createChain C (e_root (E eps k)) (pubn eps k) (clamp rnd)) as [root2 sck] eqn:ECC.
  pose proof (createChain_ok C OK _ _ _ _ _ ECC) as (HR2 & HS2 & HI2).
  set (e := mkEp (clamp rnd) root2 sck).
  assert (We : wf_eps (eps ++ [e])).
  { constructor.
    - apply Forall_app. split; [apply (we_ok _ W)|]. constructor; [|constructor].
      unfold ep_ok, e. cbn. repeat split; auto. now apply clamp_length.
    - intros m Hm. rewrite app_length in Hm. cbn [length] in Hm. unfold pubn.
      destruct (Nat.eq_dec m k) as [->|Hne].
      + rewrite (E_app1 eps e k) by lia. replace (Datatypes.S k) with (length eps) by lia. rewrite E_app2.
        exact ECC.
      + rewrite !E_app1 by lia. apply (we_next _ W). lia.
    - rewrite E_app1 by lia. apply (we_0 _ W).
    - unfold pubs. rewrite map_app. cbn [map].

      assert (NA : forall (l : list bytes) z, NoDup l -> ~ In z l -> NoDup (l ++ [z])).
      { clear. induction l as [|a l IH]; intros z Hl Hz; simpl; [repeat constructor; auto|].
        inversion Hl; subst. constructor.
        - rewrite in_app_iff. intros [?|[?|[]]]; auto. subst. apply Hz. now left.
        - apply IH; auto. intros ?. apply Hz. now right. }
      apply NA; [apply (we_nodup _ W)|exact Hfresh]. }
  set (pc := if ck_index (ckn C (e_ck (E eps n)) cnt) >? 0 then _ else _) in G1.
  set (s1 := mkSs _ _ _ _ pc _ _ _ _ _ _ _) in G1.
  assert (Hpc : 0 <= pc < 2 ^ 32).
  { unfold pc. rewrite ckn_index by auto. destruct (Z.gtb_spec (Z.of_nat cnt) 0); lia. }
  set (newc := mkChain (pubn eps k) [] (Some (e_ck (E eps k))) []) in *.
  assert (Hrecv1 : s_recv s1 = add5 (s_recv s) newc) by reflexivity.
  assert (HF1 : Forall2 (chain_ok eps nxt got) (win (Datatypes.S k)) (s_recv s1)).
  { unfold k. rewrite win_step, Hrecv1. apply Forall2_add5; [apply (so_recv _ _ _ _ _ _ _ S)|].
    split; [reflexivity|]. split; [|split; [reflexivity|intros; discriminate]]. intros _. cbn [newc ch_ck ch_mks]. fold k. rewrite Hnx. split; [reflexivity|].
    exists []. split; [reflexivity|]. split; [constructor|].
    intros i'. split; [intros []|intros [? _]; lia]. }
  assert (Hwb : forall k', In k' (win (Datatypes.S k)) -> (k' < length eps)%nat).
  { intros k' H'. apply win_lt in H'. lia. }
  assert (HinS : In k (win (Datatypes.S k))) by (apply in_win; exists 0%nat; lia).
  destruct (find_rel eps (chain_ok eps nxt got) (win (Datatypes.S k)) (s_recv s1) k)
    as (rc & Hfr & Hrc); auto; [intros ? ? [? ?]; auto|].
  pose proof Hrc as [_ [Hrc' HrD]]. destruct (Hrc' ltac:(lia)) as (Hck & sk & Hmks & Hnd & Hsk).
  assert (sk = []) as ->.
  { destruct sk as [|z sk]; auto. destruct (proj1 (Hsk z)) as [Hz _]; [now left|]. lia. }
  pose proof (gocmk_ahead C s1 (pubn eps k) rc (e_ck (E eps k)) 0 i Hfr Hc0' ltac:(lia) ltac:(lia) Hi32) as G2.
  change (ckn C (e_ck (E eps k)) 0) with (e_ck (E eps k)) in G2.
  rewrite Nat.sub_0_r, Hmks in G2. cbn [mks_of map app] in G2.
  set (f := fun r => mkChain _ _ _ _) in G2.
  set (s2 := with_recv s1 _) in G2.
  exists e, (with_pending s2 None). split; [|split; [reflexivity|split; [exact We|]]].
  - unfold gen_msg.
    replace (idpub st (other x)) with (s_remote s2) by apply (so_remote _ _ _ _ _ _ _ S).
    replace (idpub st x) with (s_local s2) by apply (so_local _ _ _ _ _ _ _ S).
    eapply ss_decrypt_genuine; eauto.
    + apply (so_sender _ _ _ _ _ _ _ S).
    + unfold getSessionVersion. now rewrite (so_version _ _ _ _ _ _ _ S).
    + change (s_remote s2) with (s_remote s). rewrite (so_remote _ _ _ _ _ _ _ S). apply idpub_len.
    + change (s_local s2) with (s_local s). rewrite (so_local _ _ _ _ _ _ _ S). apply idpub_len.
  - destruct S as [H1 H2 H3 H4 H5 H6 H7 H8 H9 H10].
    replace (Datatypes.S k) with (length eps) by lia.
    constructor; cbn [s_version s_local s_remote s_root s_sender s_prev s_pending s_lreg s_base
                      with_pending with_recv s2 s1]; auto.
    + now rewrite E_app2.
    + unfold pubn. rewrite E_app2. reflexivity.
    + rewrite Hlen. change (s_recv (with_pending s2 None)) with (upd_chain (pubn eps k) f (s_recv s1)).
      eapply Forall2_mono_in.
      { intros k' c' Hk'. apply chain_ok_ext; [apply Hwb; exact Hk'|lia]. }
      eapply upd_rel with (R := chain_ok eps nxt got);
        [exact W|intros ? ? [? ?]; auto|exact HF1|apply NoDup_win|exact Hwb|lia| | |exact HinS].
      * intros c Hc _. rewrite Hfr in Hc. injection Hc as <-. split; [exact (proj1 Hrc)|].
        split; [|split; [exact (proj1 HrD)|intros; discriminate]]. intros _.
        cbn [f ch_ck ch_mks]. unfold upd_nat. rewrite Nat.eqb_refl. split; [reflexivity|].
        exists (seq 0 i). split; [reflexivity|]. split; [apply seq_NoDup|].
        intros i'. rewrite in_seq. unfold upd_got. split.
        -- intros Ha. split; [lia|]. intros [Hb|[_ Hb]]; [eapply Hgot; eauto|lia].
        -- intros [Ha Hb]. assert (i' <> i) by (intros ->; apply Hb; auto). lia.
      * intros k' c Hne _. apply chain_ok_frame. intros _. unfold upd_nat, upd_got.
        destruct (Nat.eqb_spec k k'); [congruence|]. split; auto. intros i'. tauto.
    + destruct x; auto. destruct (Nat.eqb_spec (length eps) 1); auto. lia.
Qed.

(* ------------------------------------------------------------------------------------------ *)
(* The specification's own invariant *)
Definition owner (k : nat) : side := if Nat.odd k then SA else SB.
Definition skey (m : smsg) : nat * nat := (sm_epoch m, sm_idx m).
Definition gotk (sp : spec) (k i : nat) : Prop :=
  exists j m, In j (sp_got sp) /\ nth_error (sp_sent sp) j = Some m /\ sm_epoch m = k /\ sm_idx m = i.

Record spec_ok (sp : spec) : Prop := {
  sk_own : forall x, owner (sp_epoch sp x) = x;
  sk_adj : sp_epoch sp SA = S (sp_epoch sp SB) \/ sp_epoch sp SB = S (sp_epoch sp SA);
  sk_sent : forall j m, nth_error (sp_sent sp) j = Some m ->
     owner (sm_epoch m) = sm_from m /\ (1 <= sm_epoch m <= sp_epoch sp (sm_from m))%nat /\
     (sm_epoch m = sp_epoch sp (sm_from m) -> (sm_idx m < sp_count sp (sm_from m))%nat) /\
     (sm_idx m < length (sp_sent sp))%nat /\ wfb (sm_pt m) /\ zlen (sm_pt m) < 2 ^ 60;
  sk_count : forall x, (sp_count sp x <= length (sp_sent sp))%nat;
  sk_nodup : NoDup (map skey (sp_sent sp));
  sk_next : forall k, (sp_next sp k <= length (sp_sent sp))%nat;
  sk_new : forall k, (sp_epoch sp (other (owner k)) < k)%nat -> sp_next sp k = 0%nat;
  sk_got : forall j, In j (sp_got sp) ->
     exists m, nth_error (sp_sent sp) j = Some m /\ (sm_idx m < sp_next sp (sm_epoch m))%nat }.

Lemma other_other x : other (other x) = x.
Proof. now destruct x. Qed.

Lemma owner_SS k : owner (S (S k)) = owner k.
Proof. unfold owner. now rewrite !Nat.odd_succ, Nat.even_succ. Qed.

Lemma owner_S k : owner (S k) = other (owner k).
Proof. unfold owner. rewrite Nat.odd_succ, <- Nat.negb_odd. now destruct (Nat.odd k). Qed.

(* the distance between two keys of different owners is odd *)
Lemma owner_diff a b : owner a = other (owner b) -> (b < a)%nat -> exists d, (a = b + 1 + 2 * d)%nat.
Proof.
  intros H Hlt. replace a with (b + (a - b))%nat in H |- * by lia. revert H.
  assert (D : forall e, owner (b + e) = other (owner b) -> exists d, (e = 1 + 2 * d)%nat).
  { intros e. destruct (Nat.Even_or_Odd e) as [[c Hc]|[c Hc]]; intros H.
    - exfalso. subst e.
      assert (EQ : owner (b + 2 * c) = owner b).
      { clear H. induction c; [now rewrite Nat.mul_0_r, Nat.add_0_r|].
        replace (b + 2 * S c)%nat with (S (S (b + 2 * c))) by lia. now rewrite owner_SS. }
      rewrite EQ in H. destruct (owner b); discriminate.
    - exists c. lia. }
  intros H. destruct (D _ H) as [d Hd]. exists d. lia.
Qed.

Lemma spec0_ok : spec_ok spec0.
Proof.
  constructor; cbn; auto.
  - intros []; reflexivity.
  - intros j m H. destruct j; discriminate.
  - constructor.
  - intros j [].
Qed.

Lemma existsb_in j l : existsb (Nat.eqb j) l = true <-> In j l.
Proof.
  rewrite existsb_exists. split.
  - intros (z & Hz & Ez). apply Nat.eqb_eq in Ez. now subst.
  - intros H. exists j. split; auto. apply Nat.eqb_refl.
Qed.

Lemma deliverable_inv sp j : deliverable sp j = true ->
  exists m, nth_error (sp_sent sp) j = Some m /\ ~ In j (sp_got sp) /\
    (sp_epoch sp (other (sm_from m)) <= sm_epoch m + 9)%nat /\
    (sm_idx m <= sp_next sp (sm_epoch m) + 2000)%nat.
Proof.
  unfold deliverable, kept. destruct (nth_error (sp_sent sp) j) as [m|]; [|discriminate].
  rewrite !andb_true_iff, negb_true_iff, !Nat.leb_le. intros [[H1 H2] H3]. exists m. repeat split; auto.
  intros H. apply existsb_in in H. congruence.
Qed.

Lemma repeated_inv sp j : repeated sp j = true ->
  exists m, nth_error (sp_sent sp) j = Some m /\ In j (sp_got sp) /\
    (sp_epoch sp (other (sm_from m)) <= sm_epoch m + 9)%nat.
Proof.
  unfold repeated, kept. destruct (nth_error (sp_sent sp) j) as [m|]; [|discriminate].
  rewrite !andb_true_iff, existsb_in, Nat.leb_le. intros [H1 H2]. eauto.
Qed.

Lemma not_gotk sp j m : spec_ok sp -> nth_error (sp_sent sp) j = Some m -> ~ In j (sp_got sp) ->
  ~ gotk sp (sm_epoch m) (sm_idx m).
Proof.
  intros K Hm Hg (j' & m' & Hj' & Hm' & He & Hi). apply Hg.
  assert (j = j'); [|now subst].
  pose proof (sk_nodup _ K) as N. rewrite NoDup_nth_error in N. apply N.
  - rewrite map_length. apply nth_error_Some. congruence.
  - rewrite !nth_error_map, Hm, Hm'. cbn. unfold skey. congruence.
Qed.

(* position of a message's key relative to the receiver's *)
Lemma epoch_cases sp j m : spec_ok sp -> nth_error (sp_sent sp) j = Some m ->
  let n := sp_epoch sp (other (sm_from m)) in
  let k := sm_epoch m in
  ((k < n)%nat /\ (exists d, (n = k + 1 + 2 * d)%nat)) \/ (k = S n /\ sp_epoch sp (sm_from m) = k).
Proof.
  intros K Hm n k. destruct (sk_sent _ K _ _ Hm) as (Ho & Hk & _).
  pose proof (sk_own _ K (sm_from m)) as O1. pose proof (sk_own _ K (other (sm_from m))) as O2.
  fold n in O2. fold k in Ho, Hk.
  assert (Hadj : sp_epoch sp (sm_from m) = S n \/ n = S (sp_epoch sp (sm_from m))).
  { unfold n. destruct (sk_adj _ K), (sm_from m); cbn [other]; auto. }
  assert (Hnk : n <> k) by (intros ->; rewrite Ho in O2; now destruct (sm_from m)).
  destruct (le_lt_dec k n) as [H|H].
  - left. split; [lia|]. apply owner_diff; [|lia]. rewrite O2, Ho. reflexivity.
  - right. lia.
Qed.

Lemma nth_error_snoc {A} (l : list A) x j m :
  nth_error (l ++ [x]) j = Some m -> nth_error l j = Some m \/ (j = length l /\ m = x).
Proof.
  intros H. destruct (le_lt_dec (length l) j) as [Hj|Hj].
  - rewrite nth_error_app2 in H by auto. destruct (j - length l)%nat as [|z] eqn:Ez; cbn in H.
    + right. split; [lia|congruence].
    + destruct z; discriminate.
  - left. now rewrite nth_error_app1 in H.
Qed.

Lemma spec_send_ok sp x pt : spec_ok sp -> sp_epoch sp x <> 0%nat -> wfb pt -> zlen pt < 2 ^ 60 ->
  spec_ok (spec_step sp (Send x pt)).
Proof.
  intros K H0 Hw Hz. destruct K as [K1 K2 K3 K4 K5 K6 K7 K8].
  assert (HL : length (sp_sent (spec_step sp (Send x pt))) = S (length (sp_sent sp))).
  { cbn. rewrite app_length. cbn. lia. }
  constructor; auto.
  - intros j m Hm. rewrite HL. cbn in Hm. apply nth_error_snoc in Hm. destruct Hm as [Hm|[_ ->]].
    + destruct (K3 _ _ Hm) as (A1 & A2 & A3 & A4 & A5). cbn. unfold upd_side. repeat split; try tauto; try lia.
      intros He. specialize (A3 He). destruct x, (sm_from m); cbn; lia.
    + cbn. unfold upd_side. replace (side_eqb x x) with true by (destruct x; auto).
      pose proof (K4 x). repeat split; auto; try lia. 
  - intros z. rewrite HL. cbn. unfold upd_side. pose proof (K4 z). pose proof (K4 x). destruct (side_eqb x z); lia.
  - cbn. rewrite map_app. cbn.
    assert (NA : forall (l : list (nat * nat)) z, NoDup l -> ~ In z l -> NoDup (l ++ [z])).
    { clear. induction l as [|a l IH]; intros z Hl Hz; simpl; [repeat constructor; auto|].
      inversion Hl; subst. constructor.
      - rewrite in_app_iff. intros [?|[?|[]]]; auto. subst. apply Hz. now left.
      - apply IH; auto. intros ?. apply Hz. now right. }
    apply NA; auto. intros Hin. apply in_map_iff in Hin. destruct Hin as (m & Hk & Hin).
    apply In_nth_error in Hin. destruct Hin as (j & Hm). destruct (K3 _ _ Hm) as (A1 & A2 & A3 & _).
    unfold skey in Hk. cbn in Hk. injection Hk as He Hi.
    assert (Hf : sm_from m = x) by (rewrite <- A1, He; apply K1).
    rewrite Hf in A3. rewrite He, Hi in A3. specialize (A3 eq_refl). lia.
  - intros k. rewrite HL. cbn. pose proof (K6 k). lia.
  - intros j Hj. destruct (K8 _ Hj) as (m & Hm & Hi). exists m. split; auto. cbn.
    rewrite nth_error_app1; auto. apply nth_error_Some. congruence.
Qed.

Lemma gotk_send sp x pt k i : spec_ok sp -> (gotk (spec_step sp (Send x pt)) k i <-> gotk sp k i).
Proof.
  intros K. unfold gotk. cbn. split; intros (j & m & Hj & Hm & H); exists j, m; repeat split; try tauto.
  - destruct (sk_got _ K _ Hj) as (m' & Hm' & _). rewrite nth_error_app1 in Hm; auto.
    apply nth_error_Some. congruence.
  - rewrite nth_error_app1; auto. apply nth_error_Some. congruence.
Qed.

(* the result of delivering, spelled out *)
Definition delivered (sp : spec) (j : nat) (m : smsg) : spec :=
  let y := other (sm_from m) in
  let k := sm_epoch m in
  let nxt := upd_nat (sp_next sp) k (Nat.max (sp_next sp k) (S (sm_idx m))) in
  if (sp_epoch sp y <? k)%nat
  then mkSpec (upd_side (sp_epoch sp) y (S k)) (upd_side (sp_count sp) y 0%nat) nxt (sp_sent sp) (j :: sp_got sp)
  else mkSpec (sp_epoch sp) (sp_count sp) nxt (sp_sent sp) (j :: sp_got sp).

Lemma spec_deliver_eq sp j rnd m : deliverable sp j = true -> nth_error (sp_sent sp) j = Some m ->
  spec_step sp (Deliver j rnd) = delivered sp j m.
Proof. intros H1 H2. unfold spec_step. rewrite H1, H2. reflexivity. Qed.

Lemma delivered_sent sp j m : sp_sent (delivered sp j m) = sp_sent sp.
Proof. unfold delivered. cbv zeta. destruct (_ <? _)%nat; reflexivity. Qed.
Lemma delivered_got sp j m : sp_got (delivered sp j m) = j :: sp_got sp.
Proof. unfold delivered. cbv zeta. destruct (_ <? _)%nat; reflexivity. Qed.
Lemma delivered_next sp j m : sp_next (delivered sp j m)
  = upd_nat (sp_next sp) (sm_epoch m) (Nat.max (sp_next sp (sm_epoch m)) (S (sm_idx m))).
Proof. unfold delivered. cbv zeta. destruct (_ <? _)%nat; reflexivity. Qed.

Lemma gotk_delivered sp j m k i : nth_error (sp_sent sp) j = Some m ->
  (gotk (delivered sp j m) k i <-> upd_got (gotk sp) (sm_epoch m) (sm_idx m) k i).
Proof.
  intros Hm. unfold gotk, upd_got. rewrite delivered_sent, delivered_got. split.
  - intros (j' & m' & [<-|Hj] & Hm' & He & Hi).
    + rewrite Hm in Hm'. injection Hm' as <-. auto.
    + left. exists j', m'. auto.
  - intros [(j' & m' & Hj & Hm' & He & Hi)|[-> ->]].
    + exists j', m'. repeat split; auto. now right.
    + exists j, m. repeat split; auto. now left.
Qed.

Lemma spec_deliver_ok sp j m : spec_ok sp -> nth_error (sp_sent sp) j = Some m ->
  spec_ok (delivered sp j m).
Proof.
  intros K Hm. pose proof (epoch_cases sp j m K Hm) as HC. cbv zeta in HC.
  pose proof K as [K1 K2 K3 K4 K5 K6 K7 K8].
  destruct (K3 _ _ Hm) as (A1 & A2 & A3 & A4 & A5 & A6).
  constructor.
  - intros x. unfold delivered. cbv zeta. destruct (Nat.ltb_spec (sp_epoch sp (other (sm_from m))) (sm_epoch m)); cbn; auto.
    unfold upd_side. destruct (side_eqb (other (sm_from m)) x) eqn:Ex; auto.
    rewrite owner_S, A1. destruct x, (sm_from m); cbn in *; congruence.
  - unfold delivered. cbv zeta. destruct (Nat.ltb_spec (sp_epoch sp (other (sm_from m))) (sm_epoch m)); cbn; auto.
    destruct HC as [[? _]|[HC1 HC2]]; [lia|]. unfold upd_side.
    destruct (sm_from m); cbn in *; lia.
  - intros j' m' Hm'. rewrite delivered_sent in Hm' |- *. destruct (K3 _ _ Hm') as (B1 & B2 & B3 & B4 & B5 & B6).
    unfold delivered. cbv zeta. destruct (Nat.ltb_spec (sp_epoch sp (other (sm_from m))) (sm_epoch m)); cbn; [|exact (K3 _ _ Hm')].
    destruct HC as [[? _]|[HC1 HC2]]; [lia|]. unfold upd_side.
    destruct (sm_from m), (sm_from m'); cbn in *; repeat split; auto; try lia.
  - intros x. rewrite delivered_sent. unfold delivered. cbv zeta.
    destruct (_ <? _)%nat; cbn; auto. unfold upd_side. destruct (side_eqb _ x); auto. lia.
  - now rewrite delivered_sent.
  - intros k. rewrite delivered_sent, delivered_next. unfold upd_nat.
    destruct (Nat.eqb_spec (sm_epoch m) k); auto. pose proof (K6 (sm_epoch m)). lia.
  - intros k Hk. rewrite delivered_next. unfold upd_nat.
    destruct (Nat.eqb_spec (sm_epoch m) k) as [<-|Hne].
    + exfalso. rewrite A1 in Hk. revert Hk. unfold delivered. cbv zeta.
      destruct (Nat.ltb_spec (sp_epoch sp (other (sm_from m))) (sm_epoch m)); cbn.
      * unfold upd_side. replace (side_eqb _ _) with true by (destruct (sm_from m); auto). lia.
      * destruct HC as [[? _]|[? _]]; lia.
    + apply K7. revert Hk. unfold delivered. cbv zeta.
      destruct (Nat.ltb_spec (sp_epoch sp (other (sm_from m))) (sm_epoch m)); cbn; auto.
      unfold upd_side. destruct (side_eqb (other (sm_from m)) (other (owner k))) eqn:Es; auto.
      intros Hk. replace (other (owner k)) with (other (sm_from m)) by (destruct (sm_from m), (owner k); cbn in *; congruence).
      destruct HC as [[? _]|[? _]]; lia.
  - intros j' Hj'. rewrite delivered_got in Hj'. rewrite delivered_sent, delivered_next. unfold upd_nat.
    destruct Hj' as [<-|Hj'].
    + exists m. split; auto. rewrite Nat.eqb_refl. lia.
    + destruct (K8 _ Hj') as (m' & Hm' & Hi'). exists m'. split; auto.
      destruct (Nat.eqb_spec (sm_epoch m) (sm_epoch m')) as [->|]; lia.
Qed.

(* ------------------------------------------------------------------------------------------ *)
(* Sizes of what is sent *)
Lemma enc_varint_le n v : (length (enc_varint n v) <= n)%nat.
Proof.
  revert v; induction n as [|n IH]; intros v; [simpl; lia|].
  rewrite enc_varint_S. destruct (v <? 128); cbn [length]; [lia|]. specialize (IH (v / 128)). lia.
Qed.

Lemma cipher_of_length c pt : wfb pt -> zlen (cipher_of C (getMessageKeys C c) pt) <= zlen pt + 16.
Proof.
  intros Hw. destruct (getMessageKeys_ok C OK c) as (Hc & _ & Hi & Hiw).
  set (mk := getMessageKeys C c) in *.
  assert (Hk : aes_key_ok (mk_cipher mk) = true) by (unfold aes_key_ok; now rewrite Hc).
  unfold cipher_of. rewrite (Encrypt_ok C) by auto.
  destruct (padded_blocks pt Hw) as [Hb Hcat].
  pose proof (cbc_enc_blocks C OK (mk_cipher mk) (mk_iv mk) _ Hk (conj Hi Hiw) Hb) as Hcb.
  unfold zlen. rewrite (concat_length16 _ Hcb).
  assert (L : forall key iv bl, length (cbc_enc C key iv bl) = length bl).
  { clear. intros key iv bl; revert iv; induction bl; intros; simpl; auto. }
  rewrite L. rewrite <- (concat_length16 _ Hb), Hcat.
  pose proof (pkcs_pad_facts pt) as (Hp & _ & _ & Hl & _). cbv zeta in *. lia.
Qed.

Lemma gen_msg_small eps k i prev pt x : wfb pt -> zlen pt < 2 ^ 60 ->
  zlen (wm_ct (gen_msg eps k i prev pt x)) < 2 ^ 64 /\ zlen (wm_ser (gen_msg eps k i prev pt x)) < 2 ^ 64.
Proof.
  intros Hw Hz. unfold gen_msg, chain_msg. cbv zeta.
  set (ck := ckn C (e_ck (E eps k)) i).
  pose proof (cipher_of_length ck pt Hw) as Hc.
  set (ct := cipher_of C (getMessageKeys C ck) pt) in *.
  split; [cbn [wm_ct newWhisperMessage]; lia|].
  unfold newWhisperMessage. cbn [wm_ser].
  rewrite zlen_app. rewrite zlen_cons.
  set (mac := getMac _ _ _ _ _ _). assert (Hm : zlen mac = 8) by (unfold zlen, mac; now rewrite (getMac_length C OK)).
  rewrite Hm. unfold whisper_fields, encode. cbn [flat_map]. unfold enc_field. cbn [fst snd enc_val].
  rewrite !zlen_app. change (zlen (@nil Z)) with 0.
  assert (V : forall v, zlen (varint v) <= 10).
  { intros v. unfold zlen, varint. pose proof (enc_varint_le 10 v). lia. }
  assert (HK : zlen (key_ser (pubn eps k)) = 33) by (unfold zlen, key_ser; cbn [length]; now rewrite pubn_length).
  rewrite HK.
  repeat match goal with |- context [zlen (varint ?v)] => pose proof (V v); generalize dependent (zlen (varint v)); intros end.
  lia.
Qed.

Lemma gen_msg_load eps k i prev pt x : wfb pt -> zlen pt < 2 ^ 60 ->
  Z.of_nat i < 2 ^ 32 -> 0 <= prev < 2 ^ 32 ->
  LoadWhisperMessage (wm_ser (gen_msg eps k i prev pt x)) = Ok (gen_msg eps k i prev pt x).
Proof.
  intros Hw Hz Hi Hp. unfold gen_msg, chain_msg. cbv zeta.
  apply (Load_newWhisper C OK); auto using pubn_length; [lia|].
  apply (gen_msg_small eps k i prev pt x); auto.
Qed.

Definition pre_msg (wm : wmsg) : pkmsg :=
  newPreKeyWhisperMessage 3 (w_reg (st_w st SA)) (st_pkid st) (st_spkid st) (base_pub C st) (idpub st SA) wm.
Definition pre_loaded (wm : wmsg) : pkmsg :=
  mkPkmsg 3 (w_reg (st_w st SA)) (st_pkid st) (st_spkid st) (base_pub C st) (idpub st SA) wm (pk_ser (pre_msg wm)).

Lemma pkid_range : 0 <= st_pkid st < 2 ^ 32.
Proof. pose proof (so_otk _ _ SO) as H. destruct (st_otk st); [destruct H; lia|lia]. Qed.

Lemma pre_msg_load eps k i prev pt x : wfb pt -> zlen pt < 2 ^ 60 ->
  Z.of_nat i < 2 ^ 32 -> 0 <= prev < 2 ^ 32 ->
  LoadPreKeyWhisperMessage (pk_ser (pre_msg (gen_msg eps k i prev pt x)))
  = Ok (pre_loaded (gen_msg eps k i prev pt x)).
Proof.
  intros Hw Hz Hi Hp. unfold pre_msg, pre_loaded.
  apply (Load_newPreKey); auto using gen_msg_load, idpub_len, pkid_range.
  - apply (basepub_length C OK).
  - apply (so_reg _ _ SO).
  - pose proof (so_spkid _ _ SO). lia.
  - apply gen_msg_small; auto.
Qed.

(* ------------------------------------------------------------------------------------------ *)
(* Stores *)
Definition rid (x : side) : bytes := fst (st_peer st x).
Definition dev (x : side) : Z := snd (st_peer st x).

Record world_ok (w : world) (x : side) : Prop := {
  wo_ident : w_ident w = w_ident (st_w st x);
  wo_reg : w_reg w = w_reg (st_w st x);
  wo_trust : IsTrustedIdentity w (rid x) (idpub st (other x)) = true;
  wo_spk : w_spk w = w_spk (st_w st x) }.

Lemma set_sess_same w a d v : w_sess (set_sess w a d v) a d = v.
Proof. cbn. now rewrite beq_refl, Z.eqb_refl. Qed.

Definition eff_ok (x : side) (e : eff) : Prop :=
  match e with
  | ESaveIdentity r k => r = rid x /\ k = idpub st (other x)
  | _ => True
  end.

Lemma world_ok_eff w x e : eff_ok x e -> world_ok w x -> world_ok (apply_eff w e) x.
Proof.
  intros He [H1 H2 H3 H4]. destruct e; cbn in *; constructor; auto.
  destruct He as [-> ->]. unfold IsTrustedIdentity. cbn. rewrite !beq_refl. apply orb_true_r.
Qed.

Lemma world_ok_effs w x l : Forall (eff_ok x) l -> world_ok w x -> world_ok (apply_effs w l) x.
Proof.
  intros F. revert w. induction F as [|e l He F IH]; intros w H; cbn; auto.
  apply IH. now apply world_ok_eff.
Qed.

(* what a genuine message looks like on the network *)
Definition msg_ok (eps : list ep) (m : smsg) (e : side * mtype * bytes) : Prop :=
  match e with
  | (f, ty, b) =>
      f = sm_from m /\ exists prev, 0 <= prev < 2 ^ 32 /\
      let wm := gen_msg eps (sm_epoch m) (sm_idx m) prev (sm_pt m) (other f) in
      match ty with
      | CIPHERTEXT => (f = SA -> sm_epoch m <> 1%nat) /\ b = wm_ser wm
      | PREKEY_BUNDLE => f = SA /\ sm_epoch m = 1%nat /\ b = pk_ser (pre_msg wm)
      end
  end.

(* writes of an accepted message *)
Definition stored (x : side) (ty : mtype) (s : sstate) (p : list sstate) : list eff :=
  match ty with CIPHERTEXT => [] | PREKEY_BUNDLE => [ERemovePreKey 0] end ++ [EStoreSession (rid x) (dev x) s p].

Lemma build_again w s p wm : world_ok w SB -> s_version s = 3 -> s_base s = key_ser (base_pub C st) ->
  BuildReceiverSession C w (rid SB) (mkSr s p false) (pre_loaded wm) = (Ok (0, mkSr s p false), []).
Proof.
  intros W Hv Hb. unfold BuildReceiverSession, pre_loaded. cbn [pk_version pk_ident].
  change (3 =? currentVersion) with true. cbn [negb].
  pose proof (wo_trust _ _ W) as T. cbn [other] in T. rewrite T. cbn [negb]. unfold hasSessionState. cbn [existsb r_cur pk_base].
  unfold getSessionVersion. rewrite Hv. change (3 =? 0) with false. cbv iota. rewrite Z.eqb_refl, Hb, beq_refl. reflexivity.
Qed.

Lemma recv_accept w s p eps m f ty b rnd s' :
  let x := other f in
  world_ok w x -> w_sess w (rid x) (dev x) = Some (s, p) ->
  s_version s = 3 -> s_base s = key_ser (base_pub C st) ->
  msg_ok eps m (f, ty, b) -> wfb (sm_pt m) -> zlen (sm_pt m) < 2 ^ 60 -> Z.of_nat (sm_idx m) < 2 ^ 32 ->
  (forall prev, 0 <= prev < 2 ^ 32 ->
     exists s1, ss_decrypt C s (gen_msg eps (sm_epoch m) (sm_idx m) prev (sm_pt m) x) (rnd 0%nat) = (Ok (sm_pt m), s1) /\ s' s1) ->
  exists s1, s' s1 /\ receive C w (rid x) (dev x) ty b rnd = (Ok (sm_pt m), stored x ty s1 p).
Proof.
  intros x W Hs Hv Hb (Hf & prev & Hp & Hm) Hw Hz Hi HD. subst f.
  destruct (HD prev Hp) as (s1 & Hd & Hs1). exists s1. split; auto.
  assert (HL : LoadSession w (rid x) (dev x) = mkSr s p false) by (unfold LoadSession; now rewrite Hs).
  assert (HSC : sc_decrypt C (mkSr s p false) (gen_msg eps (sm_epoch m) (sm_idx m) prev (sm_pt m) x) rnd
                = (Ok (sm_pt m), mkSr s1 p false)).
  { unfold sc_decrypt. cbn [r_cur r_prevs r_fresh]. now rewrite Hd. }
  destruct ty; cbv zeta in Hm.
  - destruct Hm as [_ ->]. unfold receive. rewrite gen_msg_load by auto.
    unfold SessionDecryptWhisperMessage. rewrite HL. fold x. rewrite HSC. reflexivity.
  - destruct Hm as (Hf & _ & ->). fold x. unfold receive. rewrite pre_msg_load by auto.
    unfold SessionDecryptPreKeyWhisperMessage. rewrite HL.
    assert (x = SB) as EX by (unfold x; now rewrite Hf). clearbody x. subst x.
    rewrite build_again by auto. cbn [pk_msg pre_loaded]. rewrite HSC. reflexivity.
Qed.

Lemma recv_reject w s eps m f ty b rnd e s1 :
  let x := other f in
  world_ok w x -> w_sess w (rid x) (dev x) = Some (s, []) ->
  s_version s = 3 -> s_base s = key_ser (base_pub C st) ->
  msg_ok eps m (f, ty, b) -> wfb (sm_pt m) -> zlen (sm_pt m) < 2 ^ 60 -> Z.of_nat (sm_idx m) < 2 ^ 32 ->
  (forall prev, ss_decrypt C s (gen_msg eps (sm_epoch m) (sm_idx m) prev (sm_pt m) x) (rnd 0%nat) = (Err e, s1)) ->
  receive C w (rid x) (dev x) ty b rnd = (Err EInvalidMessage, []).
Proof.
  intros x W Hs Hv Hb (Hf & prev & Hp & Hm) Hw Hz Hi HD. subst f.
  assert (HL : LoadSession w (rid x) (dev x) = mkSr s [] false) by (unfold LoadSession; now rewrite Hs).
  assert (HSC : sc_decrypt C (mkSr s [] false) (gen_msg eps (sm_epoch m) (sm_idx m) prev (sm_pt m) x) rnd
                = (Err EInvalidMessage, mkSr s1 [] false)).
  { unfold sc_decrypt. cbn [r_cur r_prevs r_fresh try_prevs]. now rewrite HD. }
  destruct ty; cbv zeta in Hm.
  - destruct Hm as [_ ->]. unfold receive. rewrite gen_msg_load by auto.
    unfold SessionDecryptWhisperMessage. rewrite HL. fold x. rewrite HSC. reflexivity.
  - destruct Hm as (Hf & _ & ->). fold x. unfold receive. rewrite pre_msg_load by auto.
    unfold SessionDecryptPreKeyWhisperMessage. rewrite HL.
    assert (x = SB) as EX by (unfold x; now rewrite Hf). clearbody x. subst x.
    rewrite build_again by auto. cbn [pk_msg pre_loaded]. rewrite HSC. reflexivity.
Qed.

(* B's state right after the session has been built from a first message *)
Definition bob_state (s0 : sstate) : sstate :=
  with_regs (initializeReceiverSession C s0 (idpub st SB) (idpriv st SB)
     (basepub C (st_spk st)) (st_spk st) (st_otk st) (base_pub C st) (idpub st SA))
     (w_reg (st_w st SA)) (w_reg (st_w st SB)) (key_ser (base_pub C st)).

Lemma bob_state_ok eps nxt got : wf_eps eps -> st_ok eps 0 0 nxt got SB (bob_state empty_ss).
Proof.
  intros W. unfold bob_state, initializeReceiverSession.
  fold km. unfold root0, ck0 in *.
  destruct (calculateDerivedKeys C km) as [r0 c0] eqn:EK.
  pose proof (we_0 _ W) as E0. unfold root0, ck0 in E0. rewrite EK in E0. cbn [fst snd] in E0.
  constructor; unfold pubn; rewrite ?E0; cbn; auto; try lia.
Qed.

(* initial record of B: archived if it existed *)
Definition bob_prevs : list sstate :=
  let r := LoadSession (st_w st SB) (rid SB) (dev SB) in
  r_prevs (if r_fresh r then r else archiveCurrentState r).

Lemma no_history_prevs : no_history st -> bob_prevs = [].
Proof.
  intros H. specialize (H SB). unfold bob_prevs, LoadSession. unfold rid, dev. now rewrite H.
Qed.

Lemma recv_first w eps m b rnd s' :
  world_ok w SB -> w_sess w (rid SB) (dev SB) = w_sess (st_w st SB) (rid SB) (dev SB) ->
  (st_pkid st <> 0 -> w_pre w (st_pkid st) = w_pre (st_w st SB) (st_pkid st)) ->
  msg_ok eps m (SA, PREKEY_BUNDLE, b) -> wfb (sm_pt m) -> zlen (sm_pt m) < 2 ^ 60 -> Z.of_nat (sm_idx m) < 2 ^ 32 ->
  (forall prev, 0 <= prev < 2 ^ 32 ->
     exists s1, ss_decrypt C (bob_state empty_ss) (gen_msg eps (sm_epoch m) (sm_idx m) prev (sm_pt m) SB) (rnd 0%nat)
        = (Ok (sm_pt m), s1) /\ s' s1) ->
  exists s1, s' s1 /\ receive C w (rid SB) (dev SB) PREKEY_BUNDLE b rnd
    = (Ok (sm_pt m), ESaveIdentity (rid SB) (idpub st SA) ::
        (if st_pkid st =? 16777215 then [] else [ERemovePreKey (st_pkid st)])
        ++ [EStoreSession (rid SB) (dev SB) s1 bob_prevs]).
Proof.
  intros W Hs Hpre (Hf & prev & Hp & Hm) Hw Hz Hi HD.
  destruct (HD prev Hp) as (s1 & Hd & Hs1). exists s1. split; auto.
  cbv zeta in Hm. destruct Hm as (_ & _ & ->). cbn [other].
  unfold receive. rewrite pre_msg_load by auto.
  unfold SessionDecryptPreKeyWhisperMessage.
  set (r := LoadSession w (rid SB) (dev SB)).
  assert (Hr : r = LoadSession (st_w st SB) (rid SB) (dev SB)) by (unfold r, LoadSession; now rewrite Hs).
  assert (HB : BuildReceiverSession C w (rid SB) r
            (pre_loaded (gen_msg eps (sm_epoch m) (sm_idx m) prev (sm_pt m) SB))
            = (Ok (st_pkid st, mkSr (bob_state empty_ss) bob_prevs (r_fresh r)),
               [ESaveIdentity (rid SB) (idpub st SA)])).
  { unfold BuildReceiverSession, pre_loaded. cbn [pk_version pk_ident]. change (3 =? currentVersion) with true. cbn [negb].
    rewrite (wo_trust _ _ W : IsTrustedIdentity w (rid SB) (idpub st SA) = true). cbn [negb].
    cbn [pk_base]. rewrite Hr. pose proof (so_new _ _ SO) as HN. fold (rid SB) (dev SB) in HN. rewrite HN.
    cbn [pk_spkid pk_pkid pk_reg]. rewrite (wo_spk _ _ W), (so_spk _ _ SO). cbn [of_option bind].
    unfold load_kp. cbn [fst snd].
    rewrite (key32_ok (st_spk st)) by apply (so_spklen _ _ SO).
    rewrite (key32_ok (basepub C (st_spk st))) by apply (basepub_length C OK). cbn [bind fst snd].
    rewrite (wo_ident _ _ W), (wo_reg _ _ W). fold (idpub st SB) (idpriv st SB).
    match goal with |- context [if st_pkid st =? 0 then ?a else ?b] =>
      assert (HO : (if st_pkid st =? 0 then a else b) = Ok (st_otk st)) end.
    { pose proof (so_otk _ _ SO) as HO. destruct (st_otk st) as [k|].
      - destruct HO as (H1 & H2 & H3). destruct (Z.eqb_spec (st_pkid st) 0); [lia|].
        rewrite Hpre by assumption. rewrite H3. cbn [of_option bind fst snd]. rewrite !key32_ok by (auto; apply (basepub_length C OK)). reflexivity.
      - rewrite HO. reflexivity. }
    rewrite HO. cbn [bind].
    assert (HA : r_cur (if r_fresh r then r else archiveCurrentState r) = empty_ss).
    { unfold r, LoadSession. destruct (w_sess w (rid SB) (dev SB)) as [[c p]|]; reflexivity. }
    rewrite <- Hr, HA. unfold bob_prevs. rewrite <- Hr.
    assert (HF : r_fresh (if r_fresh r then r else archiveCurrentState r) = r_fresh r).
    { destruct (r_fresh r) eqn:EF; auto. }
    rewrite HF. reflexivity. }
  rewrite HB. cbn [pk_msg pre_loaded].
  assert (HSC : sc_decrypt C (mkSr (bob_state empty_ss) bob_prevs (r_fresh r))
                  (gen_msg eps (sm_epoch m) (sm_idx m) prev (sm_pt m) SB) rnd
                = (Ok (sm_pt m), mkSr s1 bob_prevs (r_fresh r))).
  { unfold sc_decrypt. cbn [r_cur r_prevs r_fresh]. now rewrite Hd. }
  rewrite HSC. reflexivity.
Qed.

(* ------------------------------------------------------------------------------------------ *)
(* The invariant *)
Definition sess_ok (eps : list ep) (sp : spec) (w : world) (x : side) : Prop :=
  match sp_epoch sp x with
  | O => w_sess w (rid x) (dev x) = w_sess (st_w st x) (rid x) (dev x) /\
         (st_pkid st <> 0 -> w_pre w (st_pkid st) = w_pre (st_w st x) (st_pkid st))
  | n => exists s p, w_sess w (rid x) (dev x) = Some (s, p) /\ (no_history st -> p = []) /\
         st_ok eps n (sp_count sp x) (sp_next sp) (gotk sp) x s
  end.

Record Inv (eps : list ep) (y : sys) (sp : spec) (acts : list action) : Prop := {
  iv_eps : wf_eps eps;
  iv_len : length eps = S (Nat.max (sp_epoch sp SA) (sp_epoch sp SB));
  iv_spec : spec_ok sp;
  iv_world : forall x, world_ok (y_w y x) x;
  iv_sess : forall x, sess_ok eps sp (y_w y x) x;
  iv_net : Forall2 (msg_ok eps) (sp_sent sp) (y_net y);
  iv_fresh : NoDup (pubs eps ++ flat_map (fresh_pub C) acts);
  iv_size : Z.of_nat (length (sp_sent sp) + length acts) < 2 ^ 32 }.

Lemma epoch_lt eps y sp acts x : Inv eps y sp acts -> (sp_epoch sp x < length eps)%nat.
Proof. intros I. rewrite (iv_len _ _ _ _ I). destruct x; lia. Qed.

Lemma Forall2_nth {A B} (R : A -> B -> Prop) l l' j a :
  Forall2 R l l' -> nth_error l j = Some a -> exists b, nth_error l' j = Some b /\ R a b.
Proof.
  intros F. revert j. induction F as [|a' b' l l' H F IH]; intros [|j] Hj; cbn in Hj; try discriminate.
  - injection Hj as <-. exists b'. auto.
  - cbn. auto.
Qed.

Lemma apply_effs_stored w l r d s p :
  w_sess (apply_effs w (l ++ [EStoreSession r d s p])) r d = Some (s, p).
Proof. unfold apply_effs. rewrite fold_left_app. cbn [fold_left apply_eff]. apply set_sess_same. Qed.

Lemma gen_msg_ext eps e k i prev pt x : (k < length eps)%nat ->
  gen_msg (eps ++ [e]) k i prev pt x = gen_msg eps k i prev pt x.
Proof. intros H. unfold gen_msg, pubn. now rewrite E_app1. Qed.

Lemma msg_ok_ext eps e m n : (sm_epoch m < length eps)%nat -> msg_ok eps m n -> msg_ok (eps ++ [e]) m n.
Proof.
  intros H. destruct n as [[f ty] b]. intros (Hf & prev & Hp & Hm). split; auto. exists prev. split; auto.
  cbv zeta in *. now rewrite gen_msg_ext.
Qed.

Lemma win_owner n k : In k (win n) -> owner k = other (owner n).
Proof.
  rewrite in_win. intros (d & _ & ->).
  assert (H : owner (k + 1 + 2 * d) = other (owner k)).
  { induction d as [|d IH].
    - replace (k + 1 + 2 * 0)%nat with (S k) by lia. apply owner_S.
    - replace (k + 1 + 2 * S d)%nat with (S (S (k + 1 + 2 * d))) by lia. now rewrite owner_SS. }
  rewrite H. now rewrite other_other.
Qed.

(* the party that did not act *)
Lemma sess_frame eps sp sp' w x m j :
  spec_ok sp -> sess_ok eps sp w x -> nth_error (sp_sent sp) j = Some m -> x = sm_from m ->
  sp' = delivered sp j m -> sess_ok eps sp' w x.
Proof.
  intros K H Hm Hx ->. unfold sess_ok in *.
  assert (HE : sp_epoch (delivered sp j m) x = sp_epoch sp x /\ sp_count (delivered sp j m) x = sp_count sp x).
  { unfold delivered. cbv zeta. destruct (_ <? _)%nat; cbn; auto. unfold upd_side.
    subst x. destruct (sm_from m); cbn; auto. }
  destruct HE as [-> ->]. destruct (sp_epoch sp x) as [|n] eqn:En; auto.
  destruct H as (s & p & H1 & H2 & H3). exists s, p. split; [|split]; auto.
  eapply st_ok_frame; [|exact H3]. intros k Hk _.
  assert (k <> sm_epoch m).
  { intros ->. apply win_owner in Hk. destruct (sk_sent _ K _ _ Hm) as (A & _).
    rewrite A in Hk. rewrite <- En, (sk_own _ K), Hx in Hk. now destruct (sm_from m). }
  split.
  - rewrite delivered_next. unfold upd_nat. destruct (Nat.eqb_spec (sm_epoch m) k); congruence.
  - intros i. rewrite gotk_delivered by auto. unfold upd_got. intuition congruence.
Qed.

Lemma side_eqb_refl x : side_eqb x x = true. Proof. now destruct x. Qed.
Lemma side_eqb_other x : side_eqb (other x) x = false. Proof. now destruct x. Qed.

Lemma sess_ext eps e y sp acts x : Inv eps y sp acts -> forall sp' w,
  (sp_epoch sp' x < length eps)%nat -> sess_ok eps sp' w x -> sess_ok (eps ++ [e]) sp' w x.
Proof.
  intros I sp' w Hl. unfold sess_ok. destruct (sp_epoch sp' x) as [|n] eqn:En; auto.
  intros (s & p & H1 & H2 & H3). exists s, p. split; [|split]; auto. apply st_ok_ext; auto.
  rewrite (iv_len _ _ _ _ I). pose proof (sk_adj _ (iv_spec _ _ _ _ I)). lia.
Qed.

(* st_ok respects pointwise equal bookkeeping *)
Lemma st_ok_equiv eps n cnt nxt got nxt' got' x s :
  (forall k, nxt' k = nxt k) -> (forall k i, got' k i <-> got k i) ->
  st_ok eps n cnt nxt got x s -> st_ok eps n cnt nxt' got' x s.
Proof. intros H1 H2. apply st_ok_frame. intros k _ _. split; [apply H1|]. intros i. apply H2. Qed.

(* the list of ratchet keys grows at most by one made from the randomness of the step *)
Definition grows (eps : list ep) (a : action) (eps' : list ep) : Prop :=
  eps' = eps \/
  match a with Deliver _ rnd => exists e, eps' = eps ++ [e] /\ e_priv e = clamp (rnd 0%nat) | _ => False end.

Lemma deliver_step_grows eps y sp j rnd acts :
  Inv eps y sp (Deliver j rnd :: acts) -> length (rnd 0%nat) = 32%nat -> deliverable sp j = true ->
  exists m l eps', nth_error (sp_sent sp) j = Some m /\
    perform C (st_peer st) y (Deliver j rnd) = (other (sm_from m), Ok (sm_pt m), l) /\
    Inv eps' (step C (st_peer st) y (Deliver j rnd)) (spec_step sp (Deliver j rnd)) acts /\
    grows eps (Deliver j rnd) eps'.
Proof.
  intros I Hrnd Hd. pose proof (iv_spec _ _ _ _ I) as K.
  destruct (deliverable_inv _ _ Hd) as (m & Hm & Hng & Hkept & Hidx).
  destruct (sk_sent _ K _ _ Hm) as (A1 & A2 & A3 & A4 & A5 & A6).
  pose proof (spec_deliver_eq sp j rnd m Hd Hm) as HS.
  pose proof (spec_deliver_ok sp j m K Hm) as K'.
  destruct (Forall2_nth _ _ _ _ _ (iv_net _ _ _ _ I) Hm) as ([[f ty] b] & Hnet & Hmsg).
  assert (Hf : f = sm_from m) by apply Hmsg. 
  set (x := other (sm_from m)) in *.
  pose proof (iv_size _ _ _ _ I) as Hsz. cbn [length] in Hsz.
  assert (Hi32 : Z.of_nat (sm_idx m) < 2 ^ 32) by lia.
  pose proof (not_gotk sp j m K Hm Hng) as Hngk.
  pose proof (epoch_cases sp j m K Hm) as HC. cbv zeta in HC. fold x in HC.
  assert (Hgn : forall i', gotk sp (sm_epoch m) i' -> (i' < sp_next sp (sm_epoch m))%nat).
  { intros i' (j' & m' & Hj' & Hm' & He' & Hi'). destruct (sk_got _ K _ Hj') as (m2 & Hm2 & Hlt).
    rewrite Hm' in Hm2. injection Hm2 as <-. congruence. }
  pose proof (iv_world _ _ _ _ I x) as Wx.
  pose proof (iv_sess _ _ _ _ I x) as Sx.
  (* what has to be shown of the receiver *)
  assert (Fin : forall eps' l s1 p,
     receive C (y_w y x) (rid x) (dev x) ty b rnd = (Ok (sm_pt m), l ++ [EStoreSession (rid x) (dev x) s1 p]) ->
     Forall (eff_ok x) l -> (no_history st -> p = []) ->
     wf_eps eps' -> length eps' = S (Nat.max (sp_epoch (delivered sp j m) SA) (sp_epoch (delivered sp j m) SB)) ->
     (eps' = eps \/ exists e, eps' = eps ++ [e] /\ e_priv e = clamp (rnd 0%nat)) ->
     sp_epoch (delivered sp j m) x <> 0%nat ->
     st_ok eps' (sp_epoch (delivered sp j m) x) (sp_count (delivered sp j m) x)
        (sp_next (delivered sp j m)) (gotk (delivered sp j m)) x s1 ->
     exists m l eps', nth_error (sp_sent sp) j = Some m /\
      perform C (st_peer st) y (Deliver j rnd) = (other (sm_from m), Ok (sm_pt m), l) /\
      Inv eps' (step C (st_peer st) y (Deliver j rnd)) (spec_step sp (Deliver j rnd)) acts /\
      grows eps (Deliver j rnd) eps').
  { intros eps' l s1 p HR HL HP We Hlen Hext Hne Hst.
    exists m, (l ++ [EStoreSession (rid x) (dev x) s1 p]), eps'. split; [exact Hm|].
    assert (HPf : perform C (st_peer st) y (Deliver j rnd) = (x, Ok (sm_pt m), l ++ [EStoreSession (rid x) (dev x) s1 p])).
    { unfold perform. rewrite Hnet, Hf. fold x (rid x) (dev x). now rewrite HR. }
    split; [exact HPf|]. split; [|exact Hext]. rewrite HS. unfold step. rewrite HPf. cbv beta iota.
    constructor; cbn [y_w y_net]; auto.
    - intros z. unfold upd_side. destruct (side_eqb x z) eqn:Ez; [|apply (iv_world _ _ _ _ I)].
      assert (z = x) as -> by (destruct x, z; cbn in Ez; congruence).
      apply world_ok_effs; auto. apply Forall_app. split; auto. repeat constructor.
    - intros z. unfold upd_side. destruct (side_eqb x z) eqn:Ez.
      + assert (z = x) as -> by (destruct x, z; cbn in Ez; congruence).
        unfold sess_ok. destruct (sp_epoch (delivered sp j m) x) as [|n'] eqn:En'; [congruence|].
        exists s1, p. split; [apply apply_effs_stored|]. split; auto.
      + assert (z = sm_from m) as -> by (unfold x in Ez; destruct (sm_from m), z; cbn in Ez; congruence).
        assert (SS : sess_ok eps (delivered sp j m) (y_w y (sm_from m)) (sm_from m)).
        { apply (sess_frame eps sp _ _ _ m j); auto. apply (iv_sess _ _ _ _ I). }
        destruct Hext as [->|(e & -> & _)]; auto. eapply sess_ext; eauto.
        unfold delivered. cbv zeta. destruct (_ <? _)%nat; cbn; [|eapply epoch_lt; eauto].
        unfold upd_side. fold x. rewrite Ez. eapply epoch_lt; eauto.
    - rewrite delivered_sent. destruct Hext as [->|(e & -> & _)]; [apply (iv_net _ _ _ _ I)|].
      eapply Forall2_mono_in; [|apply (iv_net _ _ _ _ I)].
      intros m' n' Hin. apply msg_ok_ext. apply In_nth_error in Hin. destruct Hin as (j' & Hj').
      destruct (sk_sent _ K _ _ Hj') as (_ & B2 & _). pose proof (epoch_lt _ _ _ _ (sm_from m') I). lia.
    - pose proof (iv_fresh _ _ _ _ I) as N. cbn [flat_map fresh_pub app] in N.
      destruct Hext as [->|(e & -> & He)].
      + apply NoDup_remove_1 in N. exact N.
      + unfold pubs. rewrite map_app. cbn [map]. rewrite He, <- app_assoc. exact N.
    - rewrite delivered_sent. lia. }
  assert (Hlen0 : length eps = S (Nat.max (sp_epoch sp SA) (sp_epoch sp SB))) by apply (iv_len _ _ _ _ I).
  assert (Hfresh : ~ In (basepub C (clamp (rnd 0%nat))) (pubs eps)).
  { pose proof (iv_fresh _ _ _ _ I) as N. cbn [flat_map fresh_pub app] in N.
    apply NoDup_remove_2 in N. rewrite in_app_iff in N. tauto. }
  assert (Hgeq : forall k i, gotk (delivered sp j m) k i <-> upd_got (gotk sp) (sm_epoch m) (sm_idx m) k i)
    by (intros; now apply gotk_delivered).
  destruct HC as [[Hlt (d & Hdn)]|[HkS HfE]].
  - (* known chain *)
    assert (Hwin : In (sm_epoch m) (win (sp_epoch sp x))) by (apply in_win; exists d; lia).
    assert (HDE : delivered sp j m = mkSpec (sp_epoch sp) (sp_count sp)
        (upd_nat (sp_next sp) (sm_epoch m) (Nat.max (sp_next sp (sm_epoch m)) (S (sm_idx m)))) (sp_sent sp) (j :: sp_got sp)).
    { unfold delivered. cbv zeta. fold x. destruct (Nat.ltb_spec (sp_epoch sp x) (sm_epoch m)); [lia|reflexivity]. }
    unfold sess_ok in Sx. destruct (sp_epoch sp x) as [|n] eqn:En; [lia|].
    destruct Sx as (s & p & Hs & Hp & Hst).
    destruct (recv_accept (y_w y x) s p eps m (sm_from m) ty b rnd
       (st_ok eps (S n) (sp_count sp x) (upd_nat (sp_next sp) (sm_epoch m) (Nat.max (sp_next sp (sm_epoch m)) (S (sm_idx m))))
          (upd_got (gotk sp) (sm_epoch m) (sm_idx m)) x)) as (s1 & Hs1 & HR); auto.
    { apply (so_version _ _ _ _ _ _ _ Hst). }
    { apply (so_base _ _ _ _ _ _ _ Hst). }
    { now rewrite <- Hf. }
    { intros prev _. destruct (core_known eps (S n) (sp_count sp x) (sp_next sp) (gotk sp) x s (sm_epoch m) (sm_idx m) prev (sm_pt m) (rnd 0%nat))
        as (s' & Hd' & Hs'); auto.
      - apply (iv_eps _ _ _ _ I).
      - rewrite <- En. eapply epoch_lt; eauto.
      - lia.
      - intros Hx. lia.
      - pose proof (sk_next _ K (sm_epoch m)). lia.
      - exists s'. split; auto. }
    eapply (Fin eps _ s1 p HR); auto.
    + destruct ty; repeat constructor.
    + apply (iv_eps _ _ _ _ I).
    + rewrite HDE. exact Hlen0.
    + rewrite HDE. cbn. rewrite En. lia.
    + rewrite HDE at 1 2. cbn [sp_epoch sp_count]. rewrite En.
      eapply st_ok_equiv; [| |exact Hs1]; [|exact Hgeq]. intros k. rewrite HDE. reflexivity.
  - (* a new key *)
    assert (Hlen : length eps = S (S (sp_epoch sp x))).
    { rewrite Hlen0. unfold x in *. destruct (sm_from m); cbn [other] in *; lia. }
    assert (Hnx0 : sp_next sp (sm_epoch m) = 0%nat).
    { apply (sk_new _ K). rewrite A1. fold x. lia. }
    assert (Hg0 : forall i', ~ gotk sp (sm_epoch m) i').
    { intros i' Hi'. apply Hgn in Hi'. lia. }
    assert (HDE : delivered sp j m = mkSpec (upd_side (sp_epoch sp) x (S (sm_epoch m))) (upd_side (sp_count sp) x 0%nat)
        (upd_nat (sp_next sp) (sm_epoch m) (Nat.max (sp_next sp (sm_epoch m)) (S (sm_idx m)))) (sp_sent sp) (j :: sp_got sp)).
    { unfold delivered. cbv zeta. fold x. destruct (Nat.ltb_spec (sp_epoch sp x) (sm_epoch m)); [reflexivity|lia]. }
    assert (HlenD : S (length eps) = S (Nat.max (sp_epoch (delivered sp j m) SA) (sp_epoch (delivered sp j m) SB))).
    { rewrite HDE. cbn [sp_epoch]. unfold upd_side, x in *. destruct (sm_from m); cbn [other side_eqb] in *; lia. }
    assert (HxD : sp_epoch (delivered sp j m) x = S (S (sp_epoch sp x)) /\ sp_count (delivered sp j m) x = 0%nat).
    { rewrite HDE. cbn [sp_epoch sp_count]. unfold upd_side. rewrite side_eqb_refl. split; lia. }
    destruct HxD as [HxD1 HxD2].
    set (R := fun s1 => exists e, e_priv e = clamp (rnd 0%nat) /\ wf_eps (eps ++ [e]) /\
        st_ok (eps ++ [e]) (S (S (sp_epoch sp x))) 0 (upd_nat (sp_next sp) (S (sp_epoch sp x)) (S (sm_idx m)))
          (upd_got (gotk sp) (S (sp_epoch sp x)) (sm_idx m)) x s1).
    assert (Core : forall cnt s, st_ok eps (sp_epoch sp x) cnt (sp_next sp) (gotk sp) x s -> Z.of_nat cnt < 2 ^ 32 ->
       forall prev, exists s1, ss_decrypt C s (gen_msg eps (sm_epoch m) (sm_idx m) prev (sm_pt m) x) (rnd 0%nat) = (Ok (sm_pt m), s1) /\ R s1).
    { intros cnt s Hst Hcnt prev. rewrite HkS.
      destruct (core_new eps (sp_epoch sp x) cnt (sp_next sp) (gotk sp) x s (sm_idx m) prev (sm_pt m) (rnd 0%nat))
        as (e & s' & Hd' & He & We & Hs'); auto.
      - apply (iv_eps _ _ _ _ I).
      - now rewrite <- HkS.
      - now rewrite <- HkS.
      - lia.
      - exists s'. split; auto. exists e. auto. }
    assert (Wrap : forall l s1 p,
      receive C (y_w y x) (rid x) (dev x) ty b rnd = (Ok (sm_pt m), l ++ [EStoreSession (rid x) (dev x) s1 p]) ->
      Forall (eff_ok x) l -> (no_history st -> p = []) -> R s1 ->
     exists m l eps', nth_error (sp_sent sp) j = Some m /\
      perform C (st_peer st) y (Deliver j rnd) = (other (sm_from m), Ok (sm_pt m), l) /\
      Inv eps' (step C (st_peer st) y (Deliver j rnd)) (spec_step sp (Deliver j rnd)) acts /\
      grows eps (Deliver j rnd) eps').
    { intros l s1 p HR HL HP (e & He & We & Hst1).
      eapply (Fin (eps ++ [e]) l s1 p HR); auto.
      - rewrite app_length, <- HlenD. cbn. lia.
      - right. exists e. auto.
      - lia.
      - rewrite HxD1, HxD2. eapply st_ok_equiv; [| |exact Hst1].
        + intros k. rewrite delivered_next, HkS. unfold upd_nat.
          replace (sp_next sp (S (sp_epoch sp x))) with 0%nat by now rewrite <- HkS. now rewrite Nat.max_0_l.
        + intros k i. rewrite Hgeq, HkS. tauto. }
    unfold sess_ok in Sx. destruct (sp_epoch sp x) as [|n] eqn:En.
    + (* B has no session yet *)
      assert (Hx : x = SB).
      { pose proof (sk_own _ K x) as O. rewrite En in O. cbn in O. now symmetry. }
      destruct Sx as [Sx1 Sx2].
      assert (Hfa : sm_from m = SA) by (unfold x in Hx; now destruct (sm_from m)).
      assert (ty = PREKEY_BUNDLE) as ->.
      { destruct ty; auto. destruct Hmsg as (_ & prev & _ & Hmm). cbv zeta in Hmm. destruct Hmm as [Hmm _].
        exfalso. apply Hmm; congruence. }
      rewrite Hf, Hfa in Hmsg. clearbody x. subst x.
      destruct (recv_first (y_w y SB) eps m b rnd R) as (s1 & Hs1 & HR); auto.
      { intros prev _. apply (Core 0%nat); [|lia]. apply bob_state_ok. apply (iv_eps _ _ _ _ I). }
      apply (Wrap (ESaveIdentity (rid SB) (idpub st SA) :: (if st_pkid st =? 16777215 then [] else [ERemovePreKey (st_pkid st)])) s1 bob_prevs HR); auto.
      * constructor; [split; reflexivity|]. destruct (_ =? _); repeat constructor.
      * apply no_history_prevs.
    + destruct Sx as (s & p & Hs & Hp & Hst).
      destruct (recv_accept (y_w y x) s p eps m (sm_from m) ty b rnd R) as (s1 & Hs1 & HR); auto.
      { apply (so_version _ _ _ _ _ _ _ Hst). }
      { apply (so_base _ _ _ _ _ _ _ Hst). }
      { now rewrite <- Hf. }
      { intros prev _. apply (Core (sp_count sp x)); auto. pose proof (sk_count _ K x). lia. }
      eapply (Wrap _ s1 p HR); auto. destruct ty; repeat constructor.
Qed.

Lemma deliver_step eps y sp j rnd acts :
  Inv eps y sp (Deliver j rnd :: acts) -> length (rnd 0%nat) = 32%nat -> deliverable sp j = true ->
  exists m l eps', nth_error (sp_sent sp) j = Some m /\
    perform C (st_peer st) y (Deliver j rnd) = (other (sm_from m), Ok (sm_pt m), l) /\
    Inv eps' (step C (st_peer st) y (Deliver j rnd)) (spec_step sp (Deliver j rnd)) acts.
Proof.
  intros H1 H2 H3. destruct (deliver_step_grows _ _ _ _ _ _ H1 H2 H3) as (m & l & eps' & A & B & D & _).
  exists m, l, eps'. auto.
Qed.

Lemma send_step eps y sp x pt acts :
  Inv eps y sp (Send x pt :: acts) -> sp_epoch sp x <> 0%nat -> wfb pt -> zlen pt < 2 ^ 60 ->
  exists b l, perform C (st_peer st) y (Send x pt) = (x, Ok b, l) /\
    Inv eps (step C (st_peer st) y (Send x pt)) (spec_step sp (Send x pt)) acts.
Proof.
  intros I H0 Hw Hz. pose proof (iv_spec _ _ _ _ I) as K.
  pose proof (iv_sess _ _ _ _ I x) as Sx. unfold sess_ok in Sx.
  pose proof (epoch_lt _ _ _ _ x I) as Hlt.
  destruct (sp_epoch sp x) as [|n'] eqn:En; [congruence|].
  set (n := S n') in *. destruct Sx as (s & p & Hs & Hp & Hst).
  pose proof (E_ok eps n (iv_eps _ _ _ _ I) Hlt) as (_ & _ & Hcl & Hc0).
  pose proof (iv_size _ _ _ _ I) as Hsz. cbn [length] in Hsz.
  pose proof (sk_count _ K x) as Hcnt.
  set (c := ckn C (e_ck (E eps n)) (sp_count sp x)) in *.
  assert (HcL : length (ck_key c) = 32%nat) by now apply ckn_key_length.
  assert (HcI : ck_index c = Z.of_nat (sp_count sp x)) by (apply ckn_index; auto; lia).
  pose proof (ss_encrypt_ok C OK s (mkChain (pubn eps n) (e_priv (E eps n)) (Some c) []) c pt
     (so_sender _ _ _ _ _ _ _ Hst) eq_refl HcL (pubn_length eps n) (so_version _ _ _ _ _ _ _ Hst)) as HE.
  rewrite (so_local _ _ _ _ _ _ _ Hst), (so_remote _ _ _ _ _ _ _ Hst) in HE.
  specialize (HE (idpub_len x) (idpub_len (other x))). cbv zeta in HE. cbn [ch_rpub ch_rpriv ch_mks] in HE.
  set (s' := with_sender s _) in HE.
  set (wm := newWhisperMessage C 3 _ (pubn eps n) _ _ _ _ _) in HE.
  assert (Hwm : wm = gen_msg eps n (sp_count sp x) (s_prev s) pt (other x)).
  { unfold wm, gen_msg, chain_msg. cbv zeta. fold c. rewrite HcI, other_other. reflexivity. }
  assert (HEX : exists b ty, ss_encrypt C s pt = Ok (b, ty, s') /\
     msg_ok eps (mkSmsg x n (sp_count sp x) pt) (x, ty, b)).
  { pose proof (so_pending _ _ _ _ _ _ _ Hst) as HP. destruct (s_pending s) as [pp|] eqn:EP.
    - destruct x; [|discriminate]. destruct (Nat.eqb_spec n 1) as [E1|]; [|discriminate].
      injection HP as ->. specialize (HE (base_pub C st) eq_refl (basepub_length C OK _)).
      eexists _, _. split; [exact HE|]. split; [reflexivity|]. exists (s_prev s).
      split; [apply (so_prev _ _ _ _ _ _ _ Hst)|]. cbn [sm_epoch sm_idx sm_pt]. split; [reflexivity|]. split; [exact E1|].
      rewrite Hwm. unfold pre_msg, the_pending. cbn [pp_pkid pp_spkid].
      rewrite (so_lreg _ _ _ _ _ _ _ Hst). rewrite Z.mod_small; [reflexivity|]. pose proof (so_spkid _ _ SO). lia.
    - eexists _, _. split; [exact HE|]. split; [reflexivity|]. exists (s_prev s).
      split; [apply (so_prev _ _ _ _ _ _ _ Hst)|]. cbn [sm_epoch sm_idx sm_pt]. rewrite Hwm. split; [|reflexivity].
      intros -> E1. rewrite E1 in HP. discriminate. }
  destruct HEX as (b & ty & HX & Hmsg).
  assert (HSE : SessionEncryptMessage C (y_w y x) (rid x) (dev x) pt
                = (Ok (b, ty), [EStoreSession (rid x) (dev x) s' p])).
  { unfold SessionEncryptMessage, LoadSession. rewrite Hs. cbn [r_cur r_prevs]. now rewrite HX. }
  assert (HPf : perform C (st_peer st) y (Send x pt) = (x, Ok b, [EStoreSession (rid x) (dev x) s' p])).
  { unfold perform. fold (rid x) (dev x). rewrite HSE. reflexivity. }
  exists b, [EStoreSession (rid x) (dev x) s' p]. split; [exact HPf|].
  unfold step. rewrite HPf. cbv beta iota.
  assert (HT : sent_type C (st_peer st) y (Send x pt) = ty).
  { unfold sent_type. fold (rid x) (dev x). now rewrite HSE. }
  rewrite HT.
  pose proof (spec_send_ok sp x pt K ltac:(congruence) Hw Hz) as K'.
  constructor; cbn [y_w y_net]; auto.
  - apply (iv_eps _ _ _ _ I).
  - cbn. apply (iv_len _ _ _ _ I).
  - intros z. unfold upd_side. destruct (side_eqb x z) eqn:Ez; [|apply (iv_world _ _ _ _ I)].
    assert (z = x) as -> by (destruct x, z; cbn in Ez; congruence).
    apply world_ok_effs; [|apply (iv_world _ _ _ _ I)]. repeat constructor.
  - intros z. unfold upd_side at 1. destruct (side_eqb x z) eqn:Ez.
    + assert (z = x) as -> by (destruct x, z; cbn in Ez; congruence).
      unfold sess_ok. cbn [sp_epoch spec_step]. rewrite En. exists s', p.
      split; [apply (apply_effs_stored _ [])|]. split; auto.
      cbn [sp_count sp_next spec_step]. unfold upd_side. rewrite side_eqb_refl.
      eapply st_ok_equiv with (nxt := sp_next sp) (got := gotk sp); auto.
      { intros k i. pose proof (gotk_send sp x pt k i K) as G. cbn [spec_step] in G. rewrite En in G. exact G. }
      destruct Hst as [H1 H2 H3 H4 H5 H6 H7 H8 H9 H10]. constructor; auto.
    + pose proof (iv_sess _ _ _ _ I z) as Sz. unfold sess_ok in *. cbn [sp_epoch sp_count sp_next spec_step] in *.
      unfold upd_side. rewrite Ez. destruct (sp_epoch sp z) as [|nz]; auto.
      destruct Sz as (sz & pz & Z1 & Z2 & Z3). exists sz, pz. split; [|split]; auto.
      eapply st_ok_equiv with (nxt := sp_next sp) (got := gotk sp); auto.
      intros k i. exact (gotk_send sp x pt k i K).
  - cbn [sp_sent spec_step]. apply Forall2_app; [apply (iv_net _ _ _ _ I)|].
    constructor; [|constructor]. rewrite En. exact Hmsg.
  - exact (iv_fresh _ _ _ _ I).
  - cbn [sp_sent spec_step]. rewrite app_length. cbn [length]. lia.
Qed.

Definition is_send (a : action) : bool := match a with Send _ _ => true | _ => false end.

(* a step that writes nothing but the known identity key *)
Lemma quiet_step eps y sp a acts x r l :
  Inv eps y sp (a :: acts) -> is_send a = false -> spec_step sp a = sp ->
  perform C (st_peer st) y a = (x, r, l) ->
  Forall (fun e => e = ESaveIdentity (rid x) (idpub st (other x))) l ->
  Inv eps (step C (st_peer st) y a) (spec_step sp a) acts.
Proof.
  intros I Ha HS HP HL. rewrite HS. unfold step. rewrite HP. cbv beta iota.
  assert (Hsame : forall w, w_sess (apply_effs w l) = w_sess w /\ w_pre (apply_effs w l) = w_pre w).
  { clear -HL. induction HL as [|e l He HL IH]; intros w; [split; reflexivity|].
    cbn [apply_effs fold_left]. destruct (IH (apply_eff w e)) as [I1 I2]. unfold apply_effs in *.
    rewrite I1, I2, He. split; reflexivity. }
  destruct I as [I1 I2 I3 I4 I5 I6 I7 I8]. constructor; cbn [y_w y_net]; auto.
  - intros z. unfold upd_side. destruct (side_eqb x z) eqn:Ez; auto.
    assert (z = x) as -> by (destruct x, z; cbn in Ez; congruence).
    apply world_ok_effs; auto. eapply Forall_impl; [|exact HL]. intros e ->. split; reflexivity.
  - intros z. unfold upd_side. destruct (side_eqb x z) eqn:Ez; auto.
    assert (z = x) as -> by (destruct x, z; cbn in Ez; congruence).
    specialize (I5 x). unfold sess_ok in *. destruct (Hsame (y_w y x)) as [-> ->]. exact I5.
  - destruct a; [discriminate| |]; auto.
  - cbn [flat_map] in I7. rewrite app_assoc in I7.
    destruct a; [discriminate| |]; cbn [fresh_pub app] in I7; [|now rewrite app_nil_r in I7].
    rewrite <- app_assoc in I7. cbn [app] in I7. now apply NoDup_remove_1 in I7.
  - cbn [length] in I8. lia.
Qed.

Lemma repeat_step eps y sp a j rnd acts :
  Inv eps y sp (a :: acts) -> no_history st -> repeated sp j = true ->
  exists m, nth_error (sp_sent sp) j = Some m /\
    perform C (st_peer st) y (Deliver j rnd) = (other (sm_from m), Err EInvalidMessage, []).
Proof.
  intros I NH Hr. pose proof (iv_spec _ _ _ _ I) as K.
  destruct (repeated_inv _ _ Hr) as (m & Hm & Hg & Hkept).
  destruct (sk_sent _ K _ _ Hm) as (A1 & A2 & A3 & A4 & A5 & A6).
  destruct (Forall2_nth _ _ _ _ _ (iv_net _ _ _ _ I) Hm) as ([[f ty] b] & Hnet & Hmsg).
  assert (Hf : f = sm_from m) by apply Hmsg.
  set (x := other (sm_from m)) in *.
  pose proof (iv_size _ _ _ _ I) as Hsz. cbn [length] in Hsz.
  pose proof (epoch_cases sp j m K Hm) as HC. cbv zeta in HC. fold x in HC.
  destruct (sk_got _ K _ Hg) as (m' & Hm' & Hnx). rewrite Hm in Hm'. injection Hm' as <-.
  assert (Hgk : gotk sp (sm_epoch m) (sm_idx m)) by (exists j, m; auto).
  destruct HC as [[Hlt (d & Hdn)]|[HkS _]].
  2: { rewrite (sk_new _ K (sm_epoch m)) in Hnx; [lia|]. rewrite A1. fold x. lia. }
  assert (Hwin : In (sm_epoch m) (win (sp_epoch sp x))) by (apply in_win; exists d; lia).
  pose proof (epoch_lt _ _ _ _ x I) as Hel.
  pose proof (iv_sess _ _ _ _ I x) as Sx. unfold sess_ok in Sx.
  destruct (sp_epoch sp x) as [|n] eqn:En; [lia|].
  destruct Sx as (s & p & Hs & Hp & Hst). rewrite (Hp NH) in Hs.
  pose proof (iv_eps _ _ _ _ I) as W.
  destruct (find_rel eps (chain_ok eps (sp_next sp) (gotk sp)) (win (S n)) (s_recv s) (sm_epoch m)) as (rc & Hfc & Hrc); auto.
  { intros k c [? ?]; auto. }
  { apply (so_recv _ _ _ _ _ _ _ Hst). }
  { intros k' H'. apply win_lt in H'. lia. }
  { lia. }
  destruct Hrc as [_ [Hrc' _]]. destruct (Hrc' ltac:(lia)) as (Hck & sk & Hmks & Hnd & Hsk).
  pose proof (E_ok eps (sm_epoch m) W ltac:(lia)) as (_ & _ & Hcl & Hc0).
  pose proof (sk_next _ K (sm_epoch m)) as Hnn.
  assert (HD : forall prev, ss_decrypt C s (gen_msg eps (sm_epoch m) (sm_idx m) prev (sm_pt m) x) (rnd 0%nat) = (Err EDuplicate, s)).
  { intros prev. unfold ss_decrypt. rewrite (so_sender _ _ _ _ _ _ _ Hst).
    unfold getSessionVersion. rewrite (so_version _ _ _ _ _ _ _ Hst).
    unfold gen_msg, chain_msg. cbv zeta. cbn [wm_version newWhisperMessage wm_rkey wm_counter].
    change (negb (3 =? (if 3 =? 0 then 2 else 3))) with false. cbv iota.
    rewrite (gocck_known C s _ (rnd 0%nat) rc (ckn C (e_ck (E eps (sm_epoch m))) (sp_next sp (sm_epoch m))))
      by (auto using ckn_key_length).
    rewrite (gocmk_dup C s _ rc); auto; [lia|].
    rewrite Hmks. apply take_mk_none; auto.
    - intros z Hz. apply Hsk in Hz. lia.
    - intros Hz. apply Hsk in Hz. tauto. }
  exists m. split; [exact Hm|]. unfold perform. rewrite Hnet, Hf. fold x (rid x) (dev x).
  pose proof (recv_reject (y_w y x) s eps m (sm_from m) ty b rnd EDuplicate s) as RR. cbv zeta in RR. fold x in RR.
  rewrite RR; auto.
  - apply (iv_world _ _ _ _ I).
  - apply (so_version _ _ _ _ _ _ _ Hst).
  - apply (so_base _ _ _ _ _ _ _ Hst).
  - now rewrite <- Hf.
  - lia.
Qed.

Lemma rep_not_del sp j : repeated sp j = true -> deliverable sp j = false.
Proof.
  unfold repeated, deliverable. destruct (nth_error (sp_sent sp) j); auto.
  rewrite andb_true_iff. intros [-> _]. reflexivity.
Qed.

Theorem any_step_grows eps y sp a acts :
  Inv eps y sp (a :: acts) -> assumed C st y sp a ->
  expected C st y sp a /\ exists eps', Inv eps' (step C (st_peer st) y a) (spec_step sp a) acts /\ grows eps a eps'.
Proof.
  intros I HA. unfold expected. destruct a as [x pt|j rnd|x ty b rnd]; cbn [assumed] in HA.
  - destruct HA as (H1 & H2 & H3). destruct (send_step _ _ _ _ _ _ I H1 H2 H3) as (b & l & HP & HI).
    rewrite HP. split; [reflexivity|]. exists eps. split; [exact HI|now left].
  - destruct HA as [Hrnd HA]. destruct (deliverable sp j) eqn:Ed.
    + destruct (deliver_step_grows _ _ _ _ _ _ I Hrnd Ed) as (m & l & eps' & Hm & HP & HI & HG). rewrite HP. split; [|eauto].
      split; [intros _; eauto|]. intros _ Hr. apply rep_not_del in Hr. congruence.
    + assert (HS : spec_step sp (Deliver j rnd) = sp) by (unfold spec_step; now rewrite Ed).
      assert (Rep : no_history st -> repeated sp j = true -> (exists x, perform C (st_peer st) y (Deliver j rnd) = (x, Err EInvalidMessage, []))).
      { intros NH Hr. destruct (repeat_step _ _ _ _ _ rnd _ I NH Hr) as (m & _ & HP). eauto. }
      destruct (perform C (st_peer st) y (Deliver j rnd)) as [[x r] l] eqn:HP. split.
      * split; [discriminate|]. intros NH Hr. destruct (Rep NH Hr) as (x' & Hx'). injection Hx' as -> -> ->. eauto.
      * exists eps. split; [|now left]. destruct HA as [HA|[[NH Hr]|HA]]; [discriminate| |].
        -- destruct (Rep NH Hr) as (x' & Hx'). injection Hx' as -> -> ->.
           eapply quiet_step; eauto.
        -- unfold refused in HA. rewrite HP in HA. destruct HA as [_ HL].
           eapply quiet_step; eauto.
  - unfold refused in HA. destruct (perform C (st_peer st) y (Inject x ty b rnd)) as [[x' r] l] eqn:HP.
    split; [exact Logic.I|]. exists eps. split; [|now left]. destruct HA as [_ HL]. eapply quiet_step; eauto.
Qed.

Theorem any_step eps y sp a acts :
  Inv eps y sp (a :: acts) -> assumed C st y sp a ->
  expected C st y sp a /\ exists eps', Inv eps' (step C (st_peer st) y a) (spec_step sp a) acts.
Proof.
  intros H1 H2. destruct (any_step_grows _ _ _ _ _ H1 H2) as (A & eps' & B & _). eauto.
Qed.

(* ------------------------------------------------------------------------------------------ *)
(* The start *)
Lemma start_inv_keys acts : good_schedule C st acts -> exists eps, Inv eps (start C st) spec0 acts /\
  map e_priv eps = [st_spk st; clamp (st_rratchet st)].
Proof.
  intros [HL HN].
  destruct (createChain C root0 (basepub C (st_spk st)) (clamp (st_rratchet st))) as [root1 sck] eqn:ECC.
  pose proof (createChain_ok C OK _ _ _ _ _ ECC) as (HR1 & HS1 & HI1).
  exists [mkEp (st_spk st) root0 ck0; mkEp (clamp (st_rratchet st)) root1 sck].
  set (eps := [_; _]).
  destruct (calculateDerivedKeys_ok C OK km _ _ (surjective_pairing _)) as (HK1 & HK2 & HK3). fold root0 ck0 in HK1, HK2, HK3.
  assert (W : wf_eps eps).
  { constructor.
    - repeat constructor; cbn; auto. + apply (so_spklen _ _ SO). + apply clamp_length. apply (so_rnd _ _ SO).
    - intros n Hn. cbn [length eps] in Hn. assert (n = 0%nat) as -> by lia. cbn. exact ECC.
    - reflexivity.
    - cbn. change ([basepub C (st_spk st); basepub C (clamp (st_rratchet st))] ++ flat_map (fresh_pub C) acts)
        with (basepub C (st_spk st) :: basepub C (clamp (st_rratchet st)) :: flat_map (fresh_pub C) acts) in *.
      inversion HN as [|? ? N1 N2]; subst. inversion N2; subst.
      constructor; [|repeat constructor; auto]. intros [Hx|[]]. apply N1. left. congruence. }
  (* A's session *)
  set (r := LoadSession (st_w st SA) (rid SA) (dev SA)).
  set (r1 := if r_fresh r then r else archiveCurrentState r).
  assert (Hcur : r_cur r1 = empty_ss).
  { unfold r1, r, LoadSession. destruct (w_sess (st_w st SA) (rid SA) (dev SA)) as [[c p]|]; reflexivity. }
  assert (HB : exists s, snd (BuildSenderSession C (st_w st SA) (rid SA) (dev SA) (the_bundle C st) (st_rbase st) (st_rratchet st))
       = [EStoreSession (rid SA) (dev SA) s (r_prevs r1); ESaveIdentity (rid SA) (idpub st SB)] /\
       st_ok eps 1 0 (sp_next spec0) (gotk spec0) SA s).
  { unfold BuildSenderSession. cbn [b_ident b_spk b_sig b_pk b_pkid b_spkid b_reg the_bundle].
    pose proof (so_trust _ _ SO SA) as T. cbn [other] in T. fold (rid SA) in T. rewrite T. cbn [negb].
    rewrite (so_sig _ _ SO). cbn [negb]. fold r. fold r1. rewrite Hcur. cbn [snd].
    eexists. split; [reflexivity|].
    unfold initializeSenderSession.
    assert (HKM : diversifier ++ dh C (fst (w_ident (st_w st SA))) (basepub C (st_spk st)) ++ dh C (clamp (st_rbase st)) (idpub st SB)
              ++ dh C (clamp (st_rbase st)) (basepub C (st_spk st))
              ++ match option_map (basepub C) (st_otk st) with Some k => dh C (clamp (st_rbase st)) k | None => [] end = km).
    { unfold km, base_pub. destruct (so_ident _ _ SO SA) as [-> _]. destruct (so_ident _ _ SO SB) as [-> _].
      unfold idpriv. rewrite (dh_comm C OK (st_spk st)). rewrite (dh_comm C OK (fst (w_ident (st_w st SB)))).
      rewrite (dh_comm C OK (st_spk st)).
      destruct (st_otk st) as [k|]; cbn [option_map]; auto. now rewrite (dh_comm C OK k). }
    rewrite HKM. rewrite (surjective_pairing (calculateDerivedKeys C km)). fold root0. rewrite ECC.
    constructor; cbn; auto; try lia.
    constructor; [|constructor]. split; [reflexivity|]. split; [congruence|]. split; [reflexivity|]. split; reflexivity. }
  destruct HB as (s & HB & Hst).
  assert (HSt : start C st = mkSys (upd_side (st_w st) SA (apply_effs (st_w st SA)
       [EStoreSession (rid SA) (dev SA) s (r_prevs r1); ESaveIdentity (rid SA) (idpub st SB)])) []).
  { unfold start. fold (rid SA) (dev SA). rewrite <- HB.
    destruct (BuildSenderSession C (st_w st SA) (rid SA) (dev SA) (the_bundle C st) (st_rbase st) (st_rratchet st)). reflexivity. }
  rewrite HSt.
  assert (WO : forall x, world_ok (st_w st x) x).
  { intros x. constructor; auto. apply (so_trust _ _ SO). }
  split; [|reflexivity]. constructor; auto.
  - apply spec0_ok.
  - intros x. cbn [y_w]. unfold upd_side. destruct x; cbn [side_eqb]; auto.
    apply world_ok_effs; auto. repeat constructor.
  - intros x. cbn [y_w]. unfold sess_ok. destruct x; cbn [sp_epoch spec0 upd_side side_eqb]; [|split; [reflexivity|intros _; reflexivity]].
    exists s, (r_prevs r1). split; [|split; auto].
    + cbn [apply_effs fold_left apply_eff set_id w_sess]. apply set_sess_same.
    + intros NH. specialize (NH SA). unfold r1, r, LoadSession, rid, dev. now rewrite NH.
  - constructor.
Qed.
Lemma start_inv acts : good_schedule C st acts -> exists eps, Inv eps (start C st) spec0 acts.
Proof. intros H. destruct (start_inv_keys acts H) as (eps & H1 & _). eauto. Qed.

(* ------------------------------------------------------------------------------------------ *)
Theorem conversation acts :
  good_schedule C st acts -> admissible C st (start C st) spec0 acts ->
  forall pre a post, acts = pre ++ a :: post ->
  expected C st (run C st (start C st) pre) (spec_run spec0 pre) a.
Proof.
  intros HG HA. destruct (start_inv acts HG) as (eps & I). clear HG.
  revert eps I HA. generalize (start C st) as y. generalize spec0 as sp. induction acts as [|a0 acts IH]; intros sp y eps I HA.
  - intros pre a post H. destruct pre; discriminate.
  - destruct HA as [H1 H2]. destruct (any_step _ _ _ _ _ I H1) as [HE (eps' & I')].
    intros pre a post H. destruct pre as [|b pre]; cbn in H; injection H as -> ->.
    + exact HE.
    + cbn [run spec_run fold_left]. eapply IH; eauto.
Qed.
End P.
