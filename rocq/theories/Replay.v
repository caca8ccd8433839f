(* C04: a message accepted in a session that has not archived states is not accepted again. *)
From Coq Require Import ZArith List Lia Bool FinFun.
From Verif Require Import Bytes Res Wire Crypto Cbc Messages Session Builder SessionProofs SessionFacts
  History HistoryProofs.
Import ListNotations.
Open Scope Z_scope.

Definition nowrap_chain (c : chain) : Prop :=
  exists ck, ch_ck c = Some ck /\ 0 <= ck_index ck < 2 ^ 32 - 2001.
Definition uniq_chain (c : chain) : Prop :=
  forall ck, ch_ck c = Some ck ->
    0 <= ck_index ck /\ NoDup (map mk_index (ch_mks c)) /\ Forall (fun k => 0 <= mk_index k < ck_index ck) (ch_mks c).

(* the position (rk, ctr) has been used up *)
Definition dead (s : sstate) (rk : bytes) (ctr : Z) : Prop :=
  exists c ck, find_chain rk (s_recv s) = Some c /\ ch_ck c = Some ck /\ ck_index ck > ctr /\
    take_mk ctr (ch_mks c) = None.

Lemma take_mk_In i l k rest : take_mk i l = Some (k, rest) ->
  mk_index k = i /\ exists a b, l = a ++ k :: b /\ rest = a ++ b.
Proof.
  revert k rest. induction l as [|x l IH]; intros k rest; cbn [take_mk]; [discriminate|].
  destruct (Z.eqb_spec i (mk_index x)) as [E|E].
  - intros H. injection H as <- <-. split; auto. exists [], l. auto.
  - destruct (take_mk i l) as [[m r]|]; [|discriminate]. intros H. injection H as <- <-.
    destruct (IH _ _ eq_refl) as (H1 & a & b & -> & ->). split; auto. exists (x :: a), b. auto.
Qed.

Lemma take_mk_None i l : take_mk i l = None <-> ~ In i (map mk_index l).
Proof.
  induction l as [|x l IH]; cbn [take_mk map In]; [tauto|]. destruct (Z.eqb_spec i (mk_index x)) as [E|E].
  - split; [discriminate|]. intros H. exfalso. apply H. auto.
  - destruct (take_mk i l) as [[m r]|].
    + split; [discriminate|]. intros H. exfalso. assert (~ In i (map mk_index l)) by tauto.
      apply IH in H0. discriminate.
    + destruct IH as [IH _]. specialize (IH eq_refl). split; auto. intros _ [H|H]; [congruence|auto].
Qed.

Section R.
Variable C : crypto.
Hypothesis OK : crypto_ok C.

Lemma ckn_index_from c n : 0 <= ck_index c -> ck_index c + Z.of_nat n < 2 ^ 32 ->
  ck_index (ckn C c n) = ck_index c + Z.of_nat n.
Proof.
  intros H0. induction n; intros H; [rewrite Z.add_0_r; reflexivity|].
  rewrite ckn_S. unfold getNextChainKey. cbn [ck_index]. rewrite IHn by lia.
  rewrite Z.mod_small by lia. lia.
Qed.

Lemma mk_index_get c : mk_index (getMessageKeys C c) = ck_index c.
Proof. reflexivity. Qed.

(* the update of the found chain by getOrCreateMessageKeys *)
Lemma gocmk_chain s1 rk c counter mk s2 rc : 0 <= counter < 2 ^ 32 ->
  find_chain rk (s_recv s1) = Some rc -> ch_ck rc = Some c -> nowrap_chain rc -> uniq_chain rc ->
  getOrCreateMessageKeys C s1 rk c counter = (Ok mk, s2) ->
  exists f, (forall x, ch_rpub (f x) = ch_rpub x) /\ s_recv s2 = upd_chain rk f (s_recv s1) /\
    uniq_chain (f rc) /\
    (exists ck, ch_ck (f rc) = Some ck /\ ck_index ck > counter /\ ck_index ck >= ck_index c) /\
    ~ In counter (map mk_index (ch_mks (f rc))) /\
    (forall i, i < ck_index c -> ~ In i (map mk_index (ch_mks rc)) -> ~ In i (map mk_index (ch_mks (f rc)))).
Proof.
  intros HC F Hc NW U. unfold getOrCreateMessageKeys. rewrite F.
  destruct NW as (ck & E & NW). rewrite Hc in E. injection E as <-.
  destruct (U _ Hc) as (U0 & U1 & U2).
  destruct (Z.gtb_spec (ck_index c) counter) as [G|G].
  - destruct (take_mk counter (ch_mks rc)) as [[k rest]|] eqn:T; intros H; [|discriminate]. injection H as <- <-.
    destruct (take_mk_In _ _ _ _ T) as (Ei & a & b & Em & Er).
    exists (fun r => mkChain (ch_rpub r) (ch_rpriv r) (ch_ck r) rest). split; [reflexivity|]. split; [reflexivity|].
    rewrite Em, map_app in U1. cbn [map] in U1. rewrite Em in U2. apply Forall_app in U2. destruct U2 as [U2 U3]. inversion U3; subst.
    cbn [ch_ck ch_mks]. rewrite map_app. split; [|split; [|split]].
    + intros ck E. cbn [ch_ck ch_mks] in *. rewrite Hc in E. injection E as <-. split; [lia|]. split.
      * rewrite map_app. eapply NoDup_remove_1; eauto.
      * apply Forall_app. auto.
    + exists c. split; auto. lia.
    + apply NoDup_remove_2 in U1. exact U1.
    + intros i _. rewrite Em, map_app. cbn [map]. rewrite !in_app_iff. cbn [In]. tauto.
  - rewrite too_far_spec by lia. destruct (Z.gtb_spec (counter - ck_index c) 2000) as [T|T]; [discriminate|].
    rewrite skip_keys_spec. intros H. injection H as <- <-.
    set (n := Z.to_nat (counter - ck_index c)).
    eexists. split; [|split; [reflexivity|]]. { reflexivity. }
    cbn [ch_ck ch_mks]. rewrite map_app, map_map. fold n.
    assert (IX : map (fun x => mk_index (getMessageKeys C (ckn C c x))) (seq 0 n) = map (fun x => ck_index c + Z.of_nat x) (seq 0 n)).
    { apply map_ext_in. intros x Hx. apply in_seq in Hx. rewrite mk_index_get. apply ckn_index_from; lia. }
    rewrite IX.
    assert (IC : ck_index (getNextChainKey C (ckn C c n)) = counter + 1).
    { unfold getNextChainKey. cbn [ck_index]. rewrite ckn_index_from by lia. rewrite Z.mod_small by lia. lia. }
    assert (UM : forall i, In i (map mk_index (ch_mks rc)) -> i < ck_index c).
    { intros i Hi. apply in_map_iff in Hi. destruct Hi as (k & <- & Hk). rewrite Forall_forall in U2. now apply U2. }
    assert (UN : forall i, In i (map (fun x => ck_index c + Z.of_nat x) (seq 0 n)) -> ck_index c <= i < counter).
    { intros i Hi. apply in_map_iff in Hi. destruct Hi as (x & <- & Hx). apply in_seq in Hx. lia. }
    split; [|split; [|split]].
    + intros ck E. cbn [ch_ck ch_mks] in *. injection E as <-. rewrite IC. split; [lia|]. rewrite map_app, map_map. split.
      * rewrite IX. clear - U1 UM UN. assert (N2 : NoDup (map (fun x => ck_index c + Z.of_nat x) (seq 0 n))).
        { apply Injective_map_NoDup; [|apply seq_NoDup]. intros x y H. lia. }
        revert U1 UM. generalize (map mk_index (ch_mks rc)). induction l as [|z l IH]; intros U1 UM; cbn [app]; auto.
        inversion U1; subst. constructor.
        -- rewrite in_app_iff. intros [?|Hz]; auto. apply UN in Hz. specialize (UM z (or_introl eq_refl)). lia.
        -- apply IH; auto. intros i Hi. apply UM. now right.
      * apply Forall_app. split.
        -- eapply Forall_impl; [|exact U2]. cbn. lia.
        -- apply Forall_forall. intros k Hk. apply in_map_iff in Hk. destruct Hk as (x & <- & Hx).
           apply in_seq in Hx. rewrite mk_index_get, ckn_index_from by lia. lia.
    + eexists. split; [reflexivity|]. rewrite IC. lia.
    + rewrite in_app_iff. intros [Hi|Hi]; [apply UM in Hi; lia|apply UN in Hi; lia].
    + intros i Hi Hn. rewrite in_app_iff. intros [?|Hx]; auto. apply UN in Hx. lia.
Qed.

Lemma find_In rk l c : find_chain rk l = Some c -> In c l.
Proof.
  induction l as [|x l IH]; cbn [find_chain]; [discriminate|]. destruct (beq rk (ch_rpub x)); [|right; auto].
  intros H. injection H as <-. now left.
Qed.

Lemma upd_chain_In rk f l rc x : find_chain rk l = Some rc -> In x (upd_chain rk f l) -> In x l \/ x = f rc.
Proof.
  induction l as [|y l IH]; cbn [find_chain upd_chain]; [discriminate|]. destruct (beq rk (ch_rpub y)).
  - intros H. injection H as <-. intros [<-|H]; auto. left. now right.
  - intros H [<-|Hx]; [left; now left|]. destruct (IH H Hx); auto. left. now right.
Qed.

Lemma tl_In {A} (l : list A) x : In x (tl l) -> In x l.
Proof. destruct l; auto. cbn. auto. Qed.

Lemma addReceiverChain_In l rk ck x : In x (addReceiverChain l rk ck) -> In x l \/ x = mkChain rk [] (Some ck) [].
Proof.
  unfold addReceiverChain. intros H.
  assert (G : In x (l ++ [mkChain rk [] (Some ck) []])).
  { destruct (Nat.ltb _ _); auto. now apply tl_In. }
  apply in_app_iff in G. destruct G as [G|[G|[]]]; auto.
Qed.

Lemma find_tl rk l c : find_chain rk (tl l) = Some c -> (length l > 0)%nat ->
  NoDup (map ch_rpub l) -> find_chain rk l = Some c.
Proof.
  destruct l as [|x l]; cbn [tl length]; [lia|]. intros H _ N. cbn [find_chain]. inversion N; subst.
  destruct (beq rk (ch_rpub x)) eqn:B; auto. apply beq_eq in B. exfalso. apply H2.
  pose proof (find_chain_rpub _ _ _ H) as E. apply find_In in H. rewrite <- B, <- E. now apply in_map.
Qed.

Definition uniq_state (s : sstate) : Prop :=
  Forall uniq_chain (s_recv s) /\ NoDup (map ch_rpub (s_recv s)).
Definition nowrap_state (s : sstate) : Prop := Forall nowrap_chain (s_recv s).

Lemma gocck_uniq s rk rnd c s1 : uniq_state s -> nowrap_state s ->
  getOrCreateChainKey C s rk rnd = Ok (c, s1) -> uniq_state s1 /\ nowrap_state s1.
Proof.
  intros [U N] W G. destruct (gocck_inv _ _ _ _ _ _ G) as [(rc & _ & _ & ->)|(sc & old & F & _ & _ & _ & Ec & R & _)].
  { split; [split; auto|auto]. }
  assert (I0 : ck_index c = 0).
  { rewrite Ec. destruct (createChain C (s_root s) rk (ch_rpriv sc)) as [a b] eqn:E.
    now pose proof (createChain_ok C OK _ _ _ _ _ E) as (_ & _ & I1). }
  split; [split|].
  - rewrite R. apply Forall_forall. intros x Hx. apply addReceiverChain_In in Hx. destruct Hx as [Hx| ->].
    + rewrite Forall_forall in U. auto.
    + intros ck E. cbn [ch_ck ch_mks] in *. injection E as <-. split; [lia|]. split; constructor.
  - rewrite R. unfold addReceiverChain.
    assert (N2 : NoDup (map ch_rpub (s_recv s ++ [mkChain rk [] (Some c) []]))).
    { rewrite map_app. cbn [map ch_rpub]. apply find_chain_none in F.
      clear - N F. induction (map ch_rpub (s_recv s)) as [|z l IH]; cbn [app].
      - constructor; [intros []|constructor].
      - inversion N; subst. constructor.
        + rewrite in_app_iff. intros [?|[?|[]]]; auto. apply F. left. auto.
        + apply IH; auto. intros H. apply F. now right. }
    destruct (Nat.ltb _ _); auto. destruct (s_recv s ++ _); cbn [tl map] in *; auto. now inversion N2.
  - unfold nowrap_state. rewrite R. apply Forall_forall. intros x Hx. apply addReceiverChain_In in Hx. destruct Hx as [Hx| ->].
    + unfold nowrap_state in W. rewrite Forall_forall in W. auto.
    + exists c. split; [reflexivity|]. lia.
Qed.

Lemma ss_decrypt_uniq s m rnd pt s' : 0 <= wm_counter m < 2 ^ 32 ->
  uniq_state s -> nowrap_state s -> ss_decrypt C s m rnd = (Ok pt, s') ->
  uniq_state s' /\ dead s' (wm_rkey m) (wm_counter m) /\
  (forall rk ctr, dead s rk ctr -> find_chain rk (s_recv s') <> None -> dead s' rk ctr) /\
  s_base s' = s_base s /\ s_version s' = s_version s.
Proof.
  intros HC U W D.
  destruct (ss_decrypt_cases _ _ _ _ _ _ D) as [(_ & X & _)|(c & s1 & rc & G1 & F & Hc & _ & H1)].
  { exfalso. now apply (X pt). }
  destruct H1 as [(e & _ & H1 & _)|(mk & s2 & G2 & [(X & _)|(p & H1 & -> & _)])]; [discriminate|exfalso; now apply (X pt)|].
  destruct (gocck_uniq _ _ _ _ _ U W G1) as [U1 W1].
  assert (Urc : uniq_chain rc) by (destruct U1 as [U1 _]; rewrite Forall_forall in U1; apply U1; eapply find_In; eauto).
  assert (Wrc : nowrap_chain rc) by (unfold nowrap_state in W1; rewrite Forall_forall in W1; apply W1; eapply find_In; eauto).
  destruct (gocmk_chain _ _ _ _ _ _ _ HC F Hc Wrc Urc G2) as (f & Hf & R & Uf & (ck & Ek & Ek2 & Ek3) & Hn & Hold).
  destruct (gocmk_frame _ _ _ _ _ _ _ G2) as (_ & _ & V2 & B2 & _).
  destruct (gocck_frame _ _ _ _ _ _ G1) as (_ & _ & V1 & B1).
  assert (F2 : find_chain (wm_rkey m) (s_recv s2) = Some (f rc)) by (rewrite R; now apply find_upd_chain).
  unfold dead. cbn [with_pending s_recv s_base s_version]. repeat split; try congruence.
  - cbn [with_pending s_recv]. rewrite R. apply Forall_forall. intros x Hx. apply (upd_chain_In _ _ _ _ _ F) in Hx.
    destruct Hx as [Hx| ->]; auto. destruct U1 as [U1 _]. rewrite Forall_forall in U1. auto.
  - cbn [with_pending s_recv]. rewrite R, upd_chain_rpub by auto. apply U1.
  - exists (f rc), ck. repeat split; auto. now apply take_mk_None.
  - intros rk ctr (c0 & ck0 & D1 & D2 & D3 & D4) HK.
    (* the chain of rk in s1 is the same as in s *)
    assert (S1 : find_chain rk (s_recv s1) = Some c0).
    { destruct (gocck_inv _ _ _ _ _ _ G1) as [(rc' & _ & _ & ->)|(sc & old & F0 & _ & _ & _ & Ec & R1 & _)]; auto.
      assert (NE : find_chain rk (s_recv s1) <> None).
      { rewrite find_chain_none in *. rewrite R, upd_chain_rpub in HK by auto. exact HK. }
      destruct (find_chain rk (s_recv s1)) as [c1|] eqn:F1; [|congruence].
      assert (c1 = c0); [|congruence].
      assert (N2 : find_chain rk (s_recv s ++ [mkChain (wm_rkey m) [] (Some c) []]) = Some c0).
      { rewrite find_chain_app, D1. reflexivity. }
      rewrite R1 in F1. unfold addReceiverChain in F1. destruct (Nat.ltb _ _); [|congruence].
      apply find_tl in F1; [congruence|rewrite app_length; cbn; lia|].
      destruct U as [_ U]. rewrite map_app. cbn [map ch_rpub]. apply find_chain_none in F0.
      clear - U F0. induction (map ch_rpub (s_recv s)) as [|z l IH]; cbn [app].
      - constructor; [intros []|constructor].
      - inversion U; subst. constructor.
        + rewrite in_app_iff. intros [?|[?|[]]]; auto. apply F0. left. auto.
        + apply IH; auto. intros H. apply F0. now right. }
    destruct (list_eq_dec Z.eq_dec rk (wm_rkey m)) as [->|Hne].
    + rewrite F in S1. injection S1 as ->. rewrite Hc in D2. injection D2 as ->.
      exists (f c0), ck. repeat split; auto; [lia|]. apply take_mk_None. apply Hold; [lia|]. now apply take_mk_None.
    + exists c0, ck0. rewrite R, find_upd_chain_other by auto. auto.
Qed.

Lemma dead_refused s m rnd : dead s (wm_rkey m) (wm_counter m) -> exists e s', 
  ss_decrypt C s m rnd = (Err e, s') \/ ss_decrypt C s m rnd = (Panic, s').
Proof.
  intros (c & ck & F & Hc & Hi & T).
  destruct (ss_decrypt C s m rnd) as [r s'] eqn:D.
  destruct (ss_decrypt_cases _ _ _ _ _ _ D) as [(_ & X & _)|(c1 & s1 & rc & G1 & F1 & Hc1 & _ & H1)].
  { destruct r as [pt|e|]; [exfalso; now apply (X pt)|exists e, s'; auto|exists EOther, s'; auto]. }
  destruct (gocck_inv _ _ _ _ _ _ G1) as [(rc' & F2 & Hc2 & ->)|(sc & old & F0 & _)]; [|congruence].
  rewrite F in F1. injection F1 as <-. rewrite Hc in Hc1. injection Hc1 as <-.
  unfold getOrCreateMessageKeys in H1. rewrite F, T in H1. destruct (Z.gtb_spec (ck_index ck) (wm_counter m)); [|lia].
  destruct H1 as [(e & _ & -> & _)|(mk & s2 & X & _)]; [|discriminate]. eauto.
Qed.

(* ---- histories ---- *)
(* P holds at the start, after each step and at the end *)
Fixpoint along (P : world -> Prop) (w : world) (h : list event) : Prop :=
  P w /\ match h with [] => True | e :: t => along P (fst (estep C w e)) t end.

Lemma along_app P h1 : forall w h2, along P w (h1 ++ h2) -> along P w h1 /\ along P (fst (history C w h1)) h2.
Proof.
  induction h1 as [|e h1 IH]; intros w h2; cbn [app along history].
  - destruct h2; cbn [along]; tauto.
  - intros [H1 H2]. apply IH in H2. destruct (estep C w e) as [w1 o]. cbn [fst] in *.
    destruct (history C w1 h1) as [w2 o2]. cbn [fst] in *. tauto.
Qed.
Lemma along_start P w h : along P w h -> P w.
Proof. destruct h; cbn [along]; tauto. Qed.

Variables (rid : bytes) (dev : Z).

(* the record of the peer has no archived states, and no receiving chain is near the end of its counters *)
Definition single (w : world) : Prop :=
  forall s p, w_sess w rid dev = Some (s, p) -> p = [] /\ nowrap_state s.
(* the record of the peer still has the receiving chain of rk *)
Definition has_chain (rk : bytes) (w : world) : Prop :=
  exists s p, w_sess w rid dev = Some (s, p) /\ In rk (map ch_rpub (s_recv s)).

Definition uinv (w : world) : Prop := forall s p, w_sess w rid dev = Some (s, p) -> uniq_state s.

Lemma estep_sess w e : w_sess (fst (estep C w e)) rid dev = w_sess w rid dev \/
  (peer_of (ecall e) = (rid, dev) /\ exists s p, writes C w (ecall e) s p /\ w_sess (fst (estep C w e)) rid dev = Some (s, p)).
Proof.
  assert (G : exists k, fst (estep C w e) = apply_effs w (firstn k (snd (perform_call C w (ecall e))))).
  { destruct e as [c|c k]; cbn [estep ecall]; destruct (perform_call C w c) as [[b o] l]; cbn [fst snd].
    - exists (length l). now rewrite firstn_all.
    - eauto. }
  destruct G as (k & ->). apply call_sessions.
Qed.

Lemma opened_counter w ty b m r1 : opened C w rid dev ty b m r1 -> 0 <= wm_counter m < 2 ^ 32.
Proof.
  assert (G : forall b m, LoadWhisperMessage b = Ok m -> 0 <= wm_counter m < 2 ^ 32).
  { clear. intros b m. unfold LoadWhisperMessage. destruct (Z.ltb_spec (zlen b - 8) 1); [discriminate|].
    destruct (negb _); [discriminate|].
    destruct (parse _) as [fs|]; [|discriminate].
    destruct (get_len 4 fs) as [ct|]; [|discriminate]. destruct (get_len 1 fs) as [rk|]; [|discriminate].
    intros H1. apply bind_ok in H1. destruct H1 as (k & _ & H1). injection H1 as <-.
    cbn [wm_counter]. destruct (get_varint 2 fs); [|lia]. unfold to_u32. apply Z.mod_pos_bound. lia. }
  destruct ty; cbn [opened].
  - intros [H _]. eauto.
  - intros (pm & pkid & l & L & -> & _). unfold LoadPreKeyWhisperMessage in L. destruct b as [|b0 body]; [discriminate|].
    destruct (negb _); [discriminate|]. destruct (parse body) as [fs|]; [|discriminate].
    destruct (get_len 2 fs); [|discriminate]. destruct (get_len 3 fs); [|discriminate]. destruct (get_len 4 fs) as [msg|]; [|discriminate].
    destruct (_ =? 0); [discriminate|].
    apply bind_ok in L. destruct L as (wm & L1 & L). apply bind_ok in L. destruct L as (bk & _ & L).
    apply bind_ok in L. destruct L as (ik & _ & L). injection L as <-. cbn [pk_msg]. eauto.
Qed.

Lemma opened_position w ty b m r1 : opened C w rid dev ty b m r1 -> position ty b = Some (wm_rkey m, wm_counter m).
Proof.
  destruct ty; cbn [opened position].
  - intros [-> _]. reflexivity.
  - intros (pm & pkid & l & L & -> & _). unfold LoadPreKeyWhisperMessage in L. destruct b as [|b0 body]; [discriminate|].
    destruct (negb _); [discriminate|]. cbn [tl]. destruct (parse body) as [fs|]; [|discriminate].
    destruct (get_len 2 fs); [|discriminate]. destruct (get_len 3 fs); [|discriminate]. destruct (get_len 4 fs) as [msg|]; [|discriminate].
    destruct (_ =? 0); [discriminate|].
    apply bind_ok in L. destruct L as (wm & L1 & L). apply bind_ok in L. destruct L as (bk & _ & L).
    apply bind_ok in L. destruct L as (ik & _ & L). injection L as <-. cbn [pk_msg]. now rewrite L1.
Qed.

Lemma archive_prevs w : w_sess w rid dev <> None ->
  r_prevs (archiveCurrentState (LoadSession w rid dev)) <> [].
Proof.
  intros _. unfold archiveCurrentState, promoteState. cbn [r_prevs].
  destruct (Nat.ltb_spec 40 (length (r_cur (LoadSession w rid dev) :: r_prevs (LoadSession w rid dev)))); [|discriminate].
  cbn [length] in *. destruct (r_prevs (LoadSession w rid dev)) as [|x l]; cbn [length] in *; [lia|]. cbn [removelast]. discriminate.
Qed.

(* acceptance with an empty archive afterwards happens in the current state *)
Lemma sc_direct r m rnd pt r' : sc_decrypt C r m rnd = (Ok pt, r') -> r_prevs r' = [] ->
  ss_decrypt C (r_cur r) m (rnd 0%nat) = (Ok pt, r_cur r') /\ r_prevs r = [].
Proof.
  unfold sc_decrypt. destruct (ss_decrypt C (r_cur r) m (rnd 0%nat)) as [[p|e|] s'].
  - intros H. injection H as <- <-. cbn. auto.
  - destruct (try_prevs C (r_prevs r) m rnd 1) as [[[[p s2]|]|e2|] l]; intros H; try discriminate.
    injection H as <- <-. unfold promoteState. cbn [r_prevs r_cur].
    destruct (Nat.ltb_spec 40 (length (s' :: l))); [|discriminate]. destruct l as [|x l]; cbn [length] in *; [lia|]. discriminate.
  - discriminate.
Qed.

Lemma opened_cur w ty b m r1 : opened C w rid dev ty b m r1 -> r_prevs r1 = [] ->
  (r1 = LoadSession w rid dev) \/ (w_sess w rid dev = None /\ s_recv (r_cur r1) = [] ).
Proof.
  destruct ty; cbn [opened].
  - intros [_ ->] _. auto.
  - intros (pm & pkid & l & L & -> & B) Hp. apply build_recv_inv in B. destruct B as [(E & _)|(spk & otk & r2 & _ & E2 & E)].
    { injection E as _ ->. auto. }
    injection E as _ ->. right. cbn [r_prevs r_cur] in *.
    destruct (w_sess w rid dev) as [[c p]|] eqn:ES.
    { exfalso. apply (archive_prevs w); [congruence|]. rewrite E2 in Hp. unfold LoadSession in *. rewrite ES in *. exact Hp. }
    split; auto. rewrite E2. unfold LoadSession. rewrite ES. cbn [NewSessionRecord r_fresh r_cur].
    unfold initializeReceiverSession. cbv zeta. destruct (calculateDerivedKeys C _). reflexivity.
Qed.

Lemma nil_state_uniq s : s_recv s = [] -> uniq_state s /\ nowrap_state s.
Proof. intros E. unfold uniq_state, nowrap_state. rewrite E. repeat constructor. Qed.

Lemma load_uniq w : uinv w -> single w ->
  uniq_state (r_cur (LoadSession w rid dev)) /\ nowrap_state (r_cur (LoadSession w rid dev)).
Proof.
  intros U S. unfold LoadSession. destruct (w_sess w rid dev) as [[c p]|] eqn:ES.
  - cbn [r_cur]. split; [eapply U; eauto|]. now destruct (S _ _ ES).
  - apply nil_state_uniq. reflexivity.
Qed.

Lemma enc_recv s pt b ty s' : ss_encrypt C s pt = Ok (b, ty, s') ->
  s_recv s' = s_recv s /\ s_base s' = s_base s /\ s_version s' = s_version s.
Proof. intros H. apply ss_encrypt_inv in H. destruct H as (sc & c & ct & _ & _ & _ & _ & _ & _ & -> & _). auto. Qed.

Lemma estep_uinv w e : uinv w -> single w -> single (fst (estep C w e)) -> uinv (fst (estep C w e)).
Proof.
  intros U S S' s p HS. destruct (estep_sess w e) as [X|(Hp & s1 & p1 & W & X)]; rewrite X in HS.
  { eapply U; eauto. }
  injection HS as -> ->. destruct (S' _ _ X) as [-> _].
  destruct (load_uniq w U S) as [UL WL].
  inversion W as [r d pt b ty s' E E1 E2 E3|r d ty b rnd m r1 pt r' O SD R E1 E2 E3|r d b rbase rratchet spk r1 Eb Er E1 E2 E3];
   rewrite <- E1 in Hp; cbn [peer_of] in Hp; injection Hp as -> ->.
  - apply enc_recv in E. destruct E as (E & _). unfold uniq_state in *. now rewrite E.
  - destruct (sc_direct _ _ _ _ _ SD E3) as [D1 D2]. pose proof (opened_counter _ _ _ _ _ O) as HC.
    assert (G : uniq_state (r_cur r1) /\ nowrap_state (r_cur r1)).
    { destruct (opened_cur _ _ _ _ _ O D2) as [-> |[_ E]]; auto using nil_state_uniq. }
    destruct G as [G1 G2]. now destruct (ss_decrypt_uniq _ _ _ _ _ HC G1 G2 D1).
  - (* a new sending session has the single chain of the signed prekey *)
    destruct (w_sess w rid dev) as [[c p]|] eqn:ES.
    { exfalso. apply (archive_prevs w); [congruence|]. rewrite Er in E3. unfold LoadSession in *. rewrite ES in *. exact E3. }
    assert (EC : r_cur r1 = empty_ss) by (rewrite Er; unfold LoadSession; rewrite ES; reflexivity).
    rewrite EC. unfold initializeSenderSession. cbv zeta.
    destruct (calculateDerivedKeys C _) as [root0 ck0]. destruct (createChain C root0 spk (clamp rratchet)) as [root1 sck] eqn:E4.
    pose proof (createChain_ok C OK _ _ _ _ _ E4) as (_ & _ & I1).
    split; cbn.
    + constructor; [|constructor]. intros ck X2. cbn [ch_ck ch_mks] in *. injection X2 as <-. rewrite I1. repeat constructor; lia.
    + repeat constructor. intros [].
Qed.

Lemma hist_uinv h : forall w, uinv w -> along single w h -> uinv (fst (history C w h)).
Proof.
  induction h as [|e h IH]; intros w U A; [exact U|].
  cbn [along] in A. destruct A as [A1 A2]. cbn [history]. pose proof (along_start _ _ _ A2) as A3.
  pose proof (estep_uinv w e U A1 A3) as U'. destruct (estep C w e) as [w1 o]. cbn [fst] in *.
  specialize (IH w1 U' A2). destruct (history C w1 h) as [w2 o2]. exact IH.
Qed.

(* used up, and known: what stays true after the message was accepted *)
Definition kinv (rk : bytes) (ctr : Z) (known : sstate -> Prop) (w : world) : Prop :=
  exists s, w_sess w rid dev = Some (s, []) /\ dead s rk ctr /\ known s.

Lemma estep_kinv rk ctr (known : sstate -> Prop) w e :
  (forall s s', s_base s' = s_base s -> s_version s' = s_version s -> known s -> known s') ->
  uinv w -> single w -> single (fst (estep C w e)) -> has_chain rk (fst (estep C w e)) ->
  kinv rk ctr known w -> kinv rk ctr known (fst (estep C w e)).
Proof.
  intros KF U S S' HK (s & ES & D & K). destruct (estep_sess w e) as [X|(Hp & s1 & p1 & W & X)].
  { exists s. rewrite X. auto. }
  destruct HK as (s2 & p2 & X2 & HIn). rewrite X in X2. injection X2 as <- <-.
  destruct (S' _ _ X) as [-> _].
  exists s1. split; auto. destruct (load_uniq w U S) as [UL WL].
  assert (EL : LoadSession w rid dev = mkSr s [] false) by (unfold LoadSession; now rewrite ES).
  inversion W as [r d pt b ty s' E E1 E2 E3|r d ty b rnd m r1 pt r' O SD R E1 E2 E3|r d b rbase rratchet spk r1 Eb Er E1 E2 E3];
   rewrite <- E1 in Hp; cbn [peer_of] in Hp; injection Hp as -> ->.
  - apply enc_recv in E. destruct E as (E & B & V). rewrite EL in *. cbn [r_cur] in *. split; [|eapply KF; eauto; congruence].
    unfold dead in *. rewrite E. exact D.
  - destruct (sc_direct _ _ _ _ _ SD E3) as [D1 D2]. pose proof (opened_counter _ _ _ _ _ O) as HC.
    destruct (opened_cur _ _ _ _ _ O D2) as [Er|[Er _]]; [|congruence].
    rewrite Er, EL in D1. cbn [r_cur] in D1. rewrite EL in UL, WL. cbn [r_cur] in UL, WL.
    destruct (ss_decrypt_uniq _ _ _ _ _ HC UL WL D1) as (_ & _ & KD & KB & KV).
    split; [|eapply KF; eauto]. apply KD; auto.
    intros FN. apply find_chain_none in FN. rewrite E2 in FN. auto.
  - exfalso. apply (archive_prevs w); [congruence|]. rewrite Er, EL in E3. rewrite EL. exact E3.
Qed.

Lemma hist_kinv rk ctr (known : sstate -> Prop) h :
  (forall s s', s_base s' = s_base s -> s_version s' = s_version s -> known s -> known s') ->
  forall w, uinv w -> along single w h -> along (has_chain rk) w h -> kinv rk ctr known w ->
  kinv rk ctr known (fst (history C w h)).
Proof.
  intros KF. induction h as [|e h IH]; intros w U A B K; [exact K|].
  cbn [along] in A, B. destruct A as [A1 A2]. destruct B as [B1 B2]. cbn [history].
  pose proof (along_start _ _ _ A2) as A3. pose proof (along_start _ _ _ B2) as B3.
  pose proof (estep_uinv w e U A1 A3) as U'. pose proof (estep_kinv _ _ _ w e KF U A1 A3 B3 K) as K'.
  destruct (estep C w e) as [w1 o]. cbn [fst] in *.
  specialize (IH w1 U' A2 B2 K'). destruct (history C w1 h) as [w2 o2]. exact IH.
Qed.

Theorem no_replay w0 h1 ty b rnd pt l rk ctr h2 rnd' :
  w_sess w0 rid dev = None ->
  let w1 := fst (history C w0 h1) in
  receive C w1 rid dev ty b rnd = (Ok pt, l) ->
  position ty b = Some (rk, ctr) ->
  along single w0 (h1 ++ Done (CRecv rid dev ty b rnd) :: h2) ->
  along (has_chain rk) (apply_effs w1 l) h2 ->
  let w3 := fst (history C (apply_effs w1 l) h2) in
  (forall pt', fst (receive C w3 rid dev ty b rnd') <> Ok pt') /\ snd (receive C w3 rid dev ty b rnd') = [].
Proof.
  intros H0 w1 R P A B w3.
  assert (U0 : uinv w0) by (intros s p X; congruence).
  apply along_app in A. destruct A as [A1 A2]. pose proof (hist_uinv h1 w0 U0 A1) as U1.
  fold w1 in A2, U1. cbn [along] in A2. destruct A2 as [A2 A3].
  assert (EST : fst (estep C w1 (Done (CRecv rid dev ty b rnd))) = apply_effs w1 l).
  { cbn [estep perform_call]. rewrite R. reflexivity. }
  pose proof (along_start _ _ _ A3) as A4.
  pose proof (estep_uinv w1 _ U1 A2 A4) as U2. rewrite EST in *.
  (* the session after acceptance *)
  set (known := fun s : sstate => match ty with
     | CIPHERTEXT => True
     | PREKEY_BUNDLE => exists pm, LoadPreKeyWhisperMessage b = Ok pm /\
          hasSessionState (mkSr s [] false) (pk_version pm) (key_ser (pk_base pm)) = true end).
  assert (KF : forall s s', s_base s' = s_base s -> s_version s' = s_version s -> known s -> known s').
  { intros s s' E1 E2. unfold known. destruct ty; auto. intros (pm & L & X). exists pm. split; auto.
    unfold hasSessionState, getSessionVersion in *. cbn [existsb r_cur r_prevs] in *. now rewrite E1, E2. }
  assert (K2 : kinv rk ctr known (apply_effs w1 l)).
  { assert (W : exists s p m r1 , w_sess (apply_effs w1 l) rid dev = Some (s, p) /\ opened C w1 rid dev ty b m r1 /\
        exists r', sc_decrypt C r1 m rnd = (Ok pt, r') /\ s = r_cur r' /\ p = r_prevs r').
    { destruct ty; cbn [receive] in R.
      - destruct (LoadWhisperMessage b) as [m|e|] eqn:L; try discriminate. unfold SessionDecryptWhisperMessage in R.
        destruct (sc_decrypt C (LoadSession w1 rid dev) m rnd) as [[q|e|] r'] eqn:D; try discriminate. injection R as -> <-.
        exists (r_cur r'), (r_prevs r'), m, (LoadSession w1 rid dev). split.
        + cbn [apply_effs fold_left apply_eff StoreSession set_sess w_sess]. now rewrite beq_refl, Z.eqb_refl.
        + split; [split; auto|]. exists r'. auto.
      - destruct (LoadPreKeyWhisperMessage b) as [pm|e|] eqn:L; try discriminate. unfold SessionDecryptPreKeyWhisperMessage in R.
        destruct (BuildReceiverSession C w1 rid (LoadSession w1 rid dev) pm) as [[[pkid r1]|e|] l1] eqn:BB; try discriminate.
        destruct (sc_decrypt C r1 (pk_msg pm) rnd) as [[q|e|] r'] eqn:D; try discriminate. injection R as -> <-.
        exists (r_cur r'), (r_prevs r'), (pk_msg pm), r1. split.
        + rewrite app_assoc. unfold apply_effs. rewrite fold_left_app. cbn [fold_left apply_eff StoreSession set_sess w_sess].
          now rewrite beq_refl, Z.eqb_refl.
        + split; [exists pm, pkid, l1; auto|]. exists r'. auto. }
    destruct W as (s & p & m & r1 & HS & O & r' & SD & -> & ->). destruct (A4 _ _ HS) as [Ep _].
    rewrite Ep in HS. exists (r_cur r'). split; auto.
    destruct (sc_direct _ _ _ _ _ SD Ep) as [D1 D2]. pose proof (opened_counter _ _ _ _ _ O) as HC.
    pose proof (opened_position _ _ _ _ _ O) as PO. rewrite P in PO. injection PO as -> ->.
    destruct (load_uniq w1 U1 A2) as [UL WL].
    assert (G : uniq_state (r_cur r1) /\ nowrap_state (r_cur r1)).
    { destruct (opened_cur _ _ _ _ _ O D2) as [-> |[_ E]]; auto using nil_state_uniq. }
    destruct G as [G1 G2]. destruct (ss_decrypt_uniq _ _ _ _ _ HC G1 G2 D1) as (_ & DD & _ & EB & EV). split; auto.
    unfold known. destruct ty; auto. cbn [opened] in O. destruct O as (pm & pkid & l1 & L & _ & BB).
    exists pm. split; auto.
    assert (V3 : pk_version pm = 3).
    { unfold BuildReceiverSession in BB. destruct (Z.eqb_spec (pk_version pm) currentVersion) as [E|E]; [exact E|discriminate]. }
    apply build_recv_inv in BB. destruct BB as [(E & _ & HH)|(spk & otk & r2 & _ & E2 & E)].
    - injection E as _ ->. unfold hasSessionState, getSessionVersion in *. rewrite D2 in HH. cbn [existsb r_cur r_prevs] in *.
      now rewrite EB, EV.
    - injection E as _ ->. cbn [r_cur] in EB, EV. unfold hasSessionState, getSessionVersion. cbn [existsb r_cur r_prevs].
      rewrite EB, EV, V3. unfold initializeReceiverSession. cbv zeta. destruct (calculateDerivedKeys C _).
      cbn [with_regs with_root with_sender with_ids s_base s_version]. rewrite beq_refl. reflexivity. }
  pose proof (hist_kinv rk ctr known h2 KF _ U2 A3 B K2) as (s & ES & D & K). fold w3 in ES.
  assert (EL : LoadSession w3 rid dev = mkSr s [] false) by (unfold LoadSession; now rewrite ES).
  assert (RF : forall m, position ty b = Some (wm_rkey m, wm_counter m) ->
     forall q, fst (sc_decrypt C (mkSr s [] false) m rnd') <> Ok q).
  { intros m PM q. rewrite P in PM. injection PM as -> ->. unfold sc_decrypt. cbn [r_cur r_prevs].
    destruct (dead_refused s m (rnd' 0%nat) D) as (e & s' & [-> | ->]); cbn [try_prevs fst]; discriminate. }
  destruct ty; cbn [receive].
  - destruct (LoadWhisperMessage b) as [m|e|] eqn:L; try (split; [intros; discriminate|reflexivity]).
    unfold SessionDecryptWhisperMessage. rewrite EL.
    assert (PM : position CIPHERTEXT b = Some (wm_rkey m, wm_counter m)) by (cbn [position]; now rewrite L).
    specialize (RF m PM). destruct (sc_decrypt C (mkSr s [] false) m rnd') as [[q|e|] r'].
    + exfalso. now apply (RF q).
    + split; [intros; discriminate|reflexivity].
    + split; [intros; discriminate|reflexivity].
  - destruct K as (pm & L & HH). rewrite L. unfold SessionDecryptPreKeyWhisperMessage. rewrite EL.
    assert (PM : position PREKEY_BUNDLE b = Some (wm_rkey (pk_msg pm), wm_counter (pk_msg pm))).
    { unfold LoadPreKeyWhisperMessage in L. cbn [position]. destruct b as [|b0 body]; [discriminate|].
      destruct (negb _); [discriminate|]. cbn [tl]. destruct (parse body) as [fs|]; [|discriminate].
      destruct (get_len 2 fs); [|discriminate]. destruct (get_len 3 fs); [|discriminate]. destruct (get_len 4 fs) as [msg|]; [|discriminate].
      destruct (_ =? 0); [discriminate|].
      apply bind_ok in L. destruct L as (wm & L1 & L). apply bind_ok in L. destruct L as (bk & _ & L).
      apply bind_ok in L. destruct L as (ik & _ & L). injection L as <-. cbn [pk_msg]. now rewrite L1. }
    unfold BuildReceiverSession. rewrite HH.
    destruct (negb _); [split; [intros; discriminate|reflexivity]|].
    destruct (negb _); [split; [intros; discriminate|reflexivity]|].
    specialize (RF _ PM). destruct (sc_decrypt C (mkSr s [] false) (pk_msg pm) rnd') as [[q|e|] r'].
    + exfalso. now apply (RF q).
    + split; [intros; discriminate|reflexivity].
    + split; [intros; discriminate|reflexivity].
Qed.
End R.
