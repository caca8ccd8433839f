(* How often a position of a sending chain can be used when archived sessions accept messages: proofs for
   PropReuse.v. For each position the number of messages at it and the number of kept sessions that can still come to
   it are counted together; a message taken by an archived session adds a copy of a session, nothing else adds one. *)
From Coq Require Import ZArith List Lia Bool.
From Verif Require Import Bytes Res Wire Crypto Cbc Messages MessagesProofs Session SessionProofs SessionFacts Builder History HistoryProofs
  Active ActiveLink Injective Accounts.
Import ListNotations.
Open Scope Z_scope.

Definition pos_dec : forall a b : bytes * Z, {a = b} + {a <> b}.
Proof. decide equality; [apply Z.eq_dec|apply (list_eq_dec Z.eq_dec)]. Defined.
Definition bdec : forall a b : bytes, {a = b} + {a <> b} := list_eq_dec Z.eq_dec.

(* the ratchet keys that a call may draw: one for each session tried *)
Definition draws (C : crypto) (w : world) (c : call) : list bytes :=
  match c with
  | CEnc _ _ _ => []
  | CRecv rid dev _ _ rnd => map (fun i => basepub C (clamp (rnd i))) (seq 0 (2 + length (r_prevs (LoadSession w rid dev))))
  | CBuild _ _ _ _ rratchet => [basepub C (clamp rratchet)]
  end.
Fixpoint all_draws (C : crypto) (w : world) (h : list event) : list bytes :=
  match h with [] => [] | e :: t => draws C w (ecall e) ++ all_draws C (fst (estep C w e)) t end.
(* the number of messages of (rid, dev) that archived sessions take *)
Fixpoint late_count (C : crypto) (rid : bytes) (dev : Z) (w : world) (h : list event) : nat :=
  match h with
  | [] => 0
  | e :: t => ((if late_for C w rid dev (ecall e) then 1 else 0) + late_count C rid dev (fst (estep C w e)) t)%nat
  end.

Section R.
Variable C : crypto.
Hypothesis OK : crypto_ok C.
Variables (rid : bytes) (dev : Z).

Definition fine (n : Z) (s : sstate) : Prop :=
  exists sc c, s_sender s = Some sc /\ ch_ck sc = Some c /\ 0 <= ck_index c <= n /\ s_version s = 3 /\
    0 <= s_prev s < 2 ^ 32 /\ 0 <= s_lreg s < 2 ^ 32 /\ (forall p, s_pending s = Some p -> 0 <= pp_pkid p < 2 ^ 32).
(* can the session still come to the position *)
Definition can (q : bytes * Z) (s : sstate) : nat :=
  match s_recv s, s_sender s with
  | _ :: _, Some sc =>
      match ch_ck sc with Some c => if beq (ch_rpub sc) (fst q) && (ck_index c <=? snd q) then 1%nat else 0%nat | None => 0%nat end
  | _, _ => 0%nat
  end.
Definition sum (q : bytes * Z) (l : list sstate) : nat := list_sum (map (can q) l).
Definition known (U : list bytes) (s : sstate) : Prop := s_recv s = [] \/ exists sc, s_sender s = Some sc /\ In (ch_rpub sc) U.

Lemma sum_cons q s l : sum q (s :: l) = (can q s + sum q l)%nat. Proof. reflexivity. Qed.
Lemma fine_mono n n' s : fine n s -> n <= n' -> fine n' s.
Proof. intros (sc & c & H1 & H2 & H3 & H4) L. exists sc, c. split; [exact H1|]. split; [exact H2|]. split; [lia|exact H4]. Qed.
Lemma known_mono U U' s : known U s -> incl U U' -> known U' s.
Proof. intros [H|(sc & H1 & H2)] HI; [now left|right; exists sc; auto]. Qed.
Lemma known_sum U l q : Forall (known U) l -> ~ In (fst q) U -> sum q l = 0%nat.
Proof.
  intros F N. induction F as [|s l H F IH]; [reflexivity|]. rewrite sum_cons, IH, Nat.add_0_r. unfold can.
  destruct H as [->|(sc & -> & H)]; [reflexivity|]. destruct (s_recv s) as [|rc0 rt0]; [reflexivity|]. destruct (ch_ck sc) as [c|]; [|reflexivity].
  destruct (beq (ch_rpub sc) (fst q)) eqn:B; [apply beq_eq in B; rewrite B in H; contradiction|reflexivity].
Qed.
Lemma can_1 q s : (can q s <= 1)%nat.
Proof. unfold can. destruct (s_recv s), (s_sender s) as [sc|]; try lia. destruct (ch_ck sc); [|lia]. destruct (_ && _); lia. Qed.

Lemma dec_step n s m r res s' : fine n s -> n < 2 ^ 32 -> ss_decrypt C s m r = (res, s') ->
  fine n s' /\ ((s_sender s' = s_sender s /\ (s_recv s' = [] <-> s_recv s = [])) \/
    exists c, s_sender s' = Some (mkChain (basepub C (clamp r)) (clamp r) (Some c) []) /\ s_recv s' <> []) /\
  (forall pt, res = Ok pt -> s_recv s' <> []).
Proof.
  intros (sc & c & Hs & Hc & Hi & Hv & Hpr & Hl & Hpp) Hn D.
  assert (FS : fine n s) by (exists sc, c; auto 10).
  destruct (ss_decrypt_cases _ _ _ _ _ _ D) as [(-> & X & _)|(c0 & s1 & rc & G1 & F & Hc0 & _ & H1)].
  { split; [exact FS|]. split; [left; tauto|]. intros pt E. now apply X in E. }
  assert (A1 : fine n s1 /\ ((s_sender s1 = s_sender s /\ (s_recv s1 = [] <-> s_recv s = [])) \/
    exists c, s_sender s1 = Some (mkChain (basepub C (clamp r)) (clamp r) (Some c) []) /\ s_recv s1 <> []) /\ s_recv s1 <> []).
  { assert (NE : s_recv s1 <> []) by (intros E; rewrite E in F; discriminate F).
    destruct (gocck_inv _ _ _ _ _ _ G1) as [(rc' & _ & _ & ->)|(sc' & old & _ & Es & Eold & _ & _ & ER & ES & _ & _ & _ & EV & EP & _ & _ & EL)].
    - split; [exact FS|]. split; [left; tauto|exact NE].
    - split; [|split; [right; eexists; split; [exact ES|exact NE]|exact NE]].
      rewrite Hs in Es. injection Es as <-. rewrite Hc in Eold. injection Eold as <-.
      destruct (createChain C (fst (createChain C (s_root s) (wm_rkey m) (ch_rpriv sc))) (wm_rkey m) (clamp r)) as [root2 sck] eqn:EC.
      cbn [snd] in ES. pose proof (createChain_ok C OK _ _ _ _ _ EC) as (_ & _ & I0).
      eexists _, sck. split; [exact ES|]. split; [reflexivity|]. split; [lia|]. split; [rewrite EV; exact Hv|]. split; [|split].
      + assert (PR : exists q, s_prev s1 = q /\ 0 <= q < 2 ^ 32).
        { unfold getOrCreateChainKey in G1. destruct (find_chain (wm_rkey m) (s_recv s)) as [x|] eqn:FF.
          - apply bind_ok in G1. destruct G1 as (a & _ & G1). injection G1 as _ <-. eauto.
          - apply bind_ok in G1. destruct G1 as (a & _ & G1). rewrite Hs in G1.
            apply bind_ok in G1. destruct G1 as (a1 & _ & G1). apply bind_ok in G1. destruct G1 as (a2 & _ & G1).
            destruct (createChain C a (wm_rkey m) a1) as [x1 x2]. destruct (createChain C x1 (wm_rkey m) (clamp r)) as [y1 y2].
            apply bind_ok in G1. destruct G1 as (old & HO & G1). injection G1 as _ <-. cbn [with_sender with_prev s_prev].
            apply load_ck_inv in HO. destruct HO as [HO _]. rewrite Hc in HO. injection HO as <-.
            eexists. split; [reflexivity|]. destruct (Z.gtb_spec (ck_index c) 0); lia. }
        destruct PR as (q & -> & PR). exact PR.
      + rewrite EL. exact Hl.
      + intros p0. rewrite EP. apply Hpp. }
  assert (A2 : forall s2 x, getOrCreateMessageKeys C s1 (wm_rkey m) c0 (wm_counter m) = (x, s2) ->
    fine n s2 /\ ((s_sender s2 = s_sender s /\ (s_recv s2 = [] <-> s_recv s = [])) \/
    exists c, s_sender s2 = Some (mkChain (basepub C (clamp r)) (clamp r) (Some c) []) /\ s_recv s2 <> []) /\ s_recv s2 <> []).
  { intros s2 x G2. destruct (gocmk_frame _ _ _ _ _ _ _ G2) as (F1 & F2 & F3 & F4 & F5 & F6 & FLen & F7 & F8).
    assert (FL : s_lreg s2 = s_lreg s1) by (eapply gocmk_lreg; eauto).
    destruct A1 as (B1 & B2 & B3).
    assert (NE : s_recv s2 <> []) by (intros E; rewrite E in FLen; destruct (s_recv s1); [now apply B3|discriminate FLen]).
    split; [|split; [|exact NE]].
    - destruct B1 as (sc1 & c1 & K1 & K2 & K3 & K4 & K5 & K6 & K7). exists sc1, c1. rewrite F5, F3, F7, F8, FL. auto 10.
    - destruct B2 as [(K1 & K2)|(c1 & K1 & K2)]; [left|right; exists c1; rewrite F5; auto]. rewrite F5. split; [exact K1|].
      split; intros E; [contradiction|]. exfalso. apply B3. now apply K2. }
  destruct H1 as [(e & G2 & -> & ->)|(mk & s2 & G2 & [(X & -> & _)|(p & -> & -> & _)])].
  - destruct (A2 _ _ G2) as (B1 & B2 & B3). split; [exact B1|]. split; [exact B2|]. intros pt E. discriminate E.
  - destruct (A2 _ _ G2) as (B1 & B2 & B3). split; [exact B1|]. split; [exact B2|]. auto.
  - destruct (A2 _ _ G2) as (B1 & B2 & B3). split; [|auto].
    destruct B1 as (sc1 & c1 & K1 & K2 & K3 & K4 & K5 & K6 & K7). exists sc1, c1.
    cbn [with_pending s_sender s_version s_prev s_lreg s_pending]. repeat (split; [assumption|]). intros p0 E. discriminate E.
Qed.
Lemma can_step n s m r res s' q : fine n s -> n < 2 ^ 32 -> ss_decrypt C s m r = (res, s') ->
  (can q s' <= can q s + count_occ bdec [basepub C (clamp r)] (fst q))%nat.
Proof.
  intros HF Hn D. destruct (dec_step n s m r res s' HF Hn D) as (_ & [(E1 & E2)|(c & E1 & E2)] & _).
  - enough (can q s' = can q s) by lia. unfold can. rewrite E1. destruct (s_recv s'), (s_recv s); try reflexivity.
    + destruct E2 as [E2 _]. discriminate (E2 eq_refl).
    + destruct E2 as [_ E2]. discriminate (E2 eq_refl).
  - cbn [count_occ]. destruct (bdec (basepub C (clamp r)) (fst q)) as [_|N]; [pose proof (can_1 q s'); lia|].
    enough (can q s' = 0%nat) by lia. unfold can. rewrite E1. destruct (s_recv s'); [reflexivity|]. cbn [ch_ck ch_rpub].
    destruct (beq (basepub C (clamp r)) (fst q)) eqn:B; [apply beq_eq in B; contradiction|reflexivity].
Qed.
Lemma known_step n U s m r res s' : fine n s -> n < 2 ^ 32 -> ss_decrypt C s m r = (res, s') -> known U s ->
  In (basepub C (clamp r)) U -> known U s'.
Proof.
  intros HF Hn D K HI. destruct (dec_step n s m r res s' HF Hn D) as (_ & [(E1 & E2)|(c & E1 & E2)] & _).
  - destruct K as [K|(sc & K1 & K2)]; [left; now apply E2|right; exists sc; rewrite E1; auto].
  - right. eexists. split; [exact E1|exact HI].
Qed.
Notation keys rnd i k := (map (fun j => basepub C (clamp (rnd j))) (seq i k)).
Lemma try_step n U m rnd : n < 2 ^ 32 -> forall l i pt s2 l', Forall (fine n) l -> Forall (known U) l -> incl (keys rnd i (length l)) U ->
  try_prevs C l m rnd i = (Ok (Some (pt, s2)), l') ->
  Forall (fine n) l' /\ Forall (known U) l' /\ In s2 l' /\ s_recv s2 <> [] /\
  forall q, (sum q l' <= sum q l + count_occ bdec (keys rnd i (length l)) (fst q))%nat.
Proof.
  intros Hn. induction l as [|s l IH]; intros i pt s2 l' HF HK HI H; cbn [try_prevs] in H; [discriminate H|].
  inversion HF as [|? ? HF1 HF2]; subst. inversion HK as [|? ? HK1 HK2]; subst.
  cbn [length seq map] in HI |- *.
  assert (I1 : In (basepub C (clamp (rnd i))) U) by (apply HI; now left).
  assert (I2 : incl (keys rnd (S i) (length l)) U) by (intros x Hx; apply HI; now right).
  destruct (ss_decrypt C s m (rnd i)) as [[pt0|e|] s'] eqn:E; [| |discriminate H].
  - injection H as <- <- <-. destruct (dec_step _ _ _ _ _ _ HF1 Hn E) as (A1 & _ & A3). specialize (A3 _ eq_refl).
    split; [now constructor|]. split; [constructor; [exact (known_step _ _ _ _ _ _ _ HF1 Hn E HK1 I1)|exact HK2]|].
    split; [now left|]. split; [exact A3|]. intros q. rewrite !sum_cons.
    pose proof (can_step _ _ _ _ _ _ q HF1 Hn E) as X. cbn [count_occ] in *. destruct (bdec _ _); lia.
  - destruct (try_prevs C l m rnd (S i)) as [r0 t'] eqn:E2. injection H as -> <-.
    destruct (IH _ _ _ _ HF2 HK2 I2 E2) as (B1 & B2 & B3 & B4 & B5).
    destruct (dec_step _ _ _ _ _ _ HF1 Hn E) as (A1 & _ & _).
    split; [now constructor|]. split; [constructor; [exact (known_step _ _ _ _ _ _ _ HF1 Hn E HK1 I1)|exact B2]|].
    split; [now right|]. split; [exact B4|]. intros q. rewrite !sum_cons.
    pose proof (can_step _ _ _ _ _ _ q HF1 Hn E) as X. specialize (B5 q). cbn [count_occ] in *. destruct (bdec _ _); lia.
Qed.
Lemma sum_in q s l : In s l -> (can q s <= sum q l)%nat.
Proof. induction l as [|x l IH]; intros H; [destruct H|]. rewrite sum_cons. destruct H as [->|H]; [lia|]. specialize (IH H). lia. Qed.
Lemma trunc (A : Type) (Q : A -> Prop) (l : list A) : Forall Q l -> Forall Q (if Nat.ltb 40 (length l) then removelast l else l).
Proof.
  intros H. destruct (Nat.ltb 40 (length l)); [|exact H]. induction H as [|x l H1 H2 IH]; [constructor|].
  cbn [removelast]. destruct l; [constructor|]. now constructor.
Qed.
Lemma sum_trunc q l : (sum q (if Nat.ltb 40 (length l) then removelast l else l) <= sum q l)%nat.
Proof.
  destruct (Nat.ltb 40 (length l)); [|lia]. induction l as [|x l IH]; [cbn; lia|]. cbn [removelast]. destruct l as [|y l]; [cbn; lia|].
  rewrite !sum_cons in *. lia.
Qed.
Lemma sc_step n U r1 m rnd pt r' : n < 2 ^ 32 -> Forall (fine n) (r_cur r1 :: r_prevs r1) -> Forall (known U) (r_cur r1 :: r_prevs r1) ->
  incl (keys rnd 0 (1 + length (r_prevs r1))) U -> sc_decrypt C r1 m rnd = (Ok pt, r') ->
  Forall (fine n) (r_cur r' :: r_prevs r') /\ Forall (known U) (r_cur r' :: r_prevs r') /\ s_recv (r_cur r') <> [] /\
  forall q, (sum q (r_cur r' :: r_prevs r') <= sum q (r_cur r1 :: r_prevs r1) + count_occ bdec (keys rnd 0 (1 + length (r_prevs r1))) (fst q) +
    if is_ok (fst (ss_decrypt C (r_cur r1) m (rnd 0%nat))) then 0 else 1)%nat /\
  (can q (r_cur r') <= (if is_ok (fst (ss_decrypt C (r_cur r1) m (rnd 0%nat))) then can q (r_cur r1) else sum q (r_cur r1 :: r_prevs r1)) +
    count_occ bdec (keys rnd 0 (1 + length (r_prevs r1))) (fst q))%nat.
Proof.
  intros Hn HF HK HI H. inversion HF as [|? ? HF1 HF2]; subst. inversion HK as [|? ? HK1 HK2]; subst.
  cbn [plus seq map] in HI |- *.
  assert (I1 : In (basepub C (clamp (rnd 0%nat))) U) by (apply HI; now left).
  assert (I2 : incl (keys rnd 1%nat (length (r_prevs r1))) U) by (intros x Hx; apply HI; now right).
  unfold sc_decrypt in H. destruct (ss_decrypt C (r_cur r1) m (rnd 0%nat)) as [[pt0|e|] s'] eqn:E; [| |discriminate H].
  - injection H as <- <-. cbn [r_cur r_prevs fst is_ok]. destruct (dec_step _ _ _ _ _ _ HF1 Hn E) as (A1 & _ & A3). specialize (A3 _ eq_refl).
    split; [now constructor|]. split; [constructor; [exact (known_step _ _ _ _ _ _ _ HF1 Hn E HK1 I1)|exact HK2]|]. split; [exact A3|].
    intros q. rewrite !sum_cons. pose proof (can_step _ _ _ _ _ _ q HF1 Hn E) as X. cbn [count_occ] in *. destruct (bdec _ _); lia.
  - destruct (try_prevs C (r_prevs r1) m rnd 1) as [[[[pt0 s2]|]|e0|] l'] eqn:E2; try discriminate H. injection H as <- <-.
    destruct (dec_step _ _ _ _ _ _ HF1 Hn E) as (A1 & _ & _).
    destruct (try_step n U m rnd Hn _ _ _ _ _ HF2 HK2 I2 E2) as (B1 & B2 & B3 & B4 & B5).
    cbn [promoteState r_cur r_prevs fst is_ok].
    assert (K' : known U s') by exact (known_step _ _ _ _ _ _ _ HF1 Hn E HK1 I1).
    split; [constructor; [rewrite Forall_forall in B1; now apply B1|]; apply trunc; now constructor|].
    split; [constructor; [rewrite Forall_forall in B2; now apply B2|]; apply trunc; now constructor|].
    split; [exact B4|]. intros q. rewrite sum_cons. pose proof (sum_trunc q (s' :: l')) as T. rewrite !sum_cons in *.
    pose proof (can_step _ _ _ _ _ _ q HF1 Hn E) as X. specialize (B5 q). pose proof (can_1 q s2) as Y. pose proof (sum_in q s2 l' B3) as Y2. cbn [count_occ] in *. destruct (bdec _ _); lia.
Qed.

(* --- the invariant: U the ratchet keys drawn, P the positions used, L the messages taken by archived sessions --- *)
Record rinv (U : list bytes) (P : list (bytes * Z)) (n : Z) (L : nat) (w : world) : Prop := {
  ri_used : forall rk ctr, In (rk, ctr) P -> In rk U;
  ri_reg : 0 <= w_reg w < 2 ^ 32;
  ri_count : forall q, (count_occ pos_dec P q <= Nat.max 1 L)%nat;
  ri_sess : forall s p, w_sess w rid dev = Some (s, p) -> Forall (fine n) (s :: p) /\ Forall (known U) (s :: p) /\ s_recv s <> [] /\
    forall q, (count_occ pos_dec P q + sum q (s :: p) <= 1 + L)%nat /\ (count_occ pos_dec P q + can q s <= Nat.max 1 L)%nat }.

Lemma not_used P U q : (forall rk ctr, In (rk, ctr) P -> In rk U) -> ~ In (fst q) U -> count_occ pos_dec P q = 0%nat.
Proof. intros H N. apply count_occ_not_In. intros HI. destruct q as [rk ctr]. now apply H in HI. Qed.
Lemma nodup_count U D q : NoDup (U ++ D) -> (count_occ bdec D q <= 1)%nat /\ ((0 < count_occ bdec D q)%nat -> ~ In q U).
Proof.
  intros H. split.
  - apply NoDup_count_occ. induction U as [|x U IH]; [exact H|]. inversion H; subst. auto.
  - intros Hc HU. apply (count_occ_In bdec) in Hc. induction U as [|x U IH]; [destruct HU|].
    cbn [app] in H. inversion H as [|? ? H1 H2]; subst. destruct HU as [->|HU]; [apply H1; apply in_or_app; now right|auto].
Qed.
Lemma seq_prefix rnd a b x : (a <= b)%nat -> (count_occ bdec (keys rnd 0 a) x <= count_occ bdec (keys rnd 0 b) x)%nat.
Proof. intros H. replace b with (a + (b - a))%nat by lia. rewrite seq_app, map_app, count_occ_app. lia. Qed.

(* what a call writes *)
Lemma writes_rinv U P n L w c s p : rinv U P n L w -> 0 <= n < 2 ^ 32 - 1 -> peer_of c = (rid, dev) ->
  writes C w c s p -> call_typed c -> NoDup (U ++ draws C w c) ->
  Forall (fine (n + 1)) (s :: p) /\ Forall (known (U ++ draws C w c)) (s :: p) /\ s_recv s <> [] /\
  forall q, (count_occ pos_dec P q + sum q (s :: p) <= 1 + (L + if late_for C w rid dev c then 1 else 0))%nat /\
    (count_occ pos_dec P q + can q s <= Nat.max 1 (L + if late_for C w rid dev c then 1 else 0))%nat.
Proof.
  intros I Hn Hp W T ND.
  assert (IU : incl U (U ++ draws C w c)) by (intros x Hx; apply in_or_app; now left).
  assert (ID : incl (draws C w c) (U ++ draws C w c)) by (intros x Hx; apply in_or_app; now right).
  assert (MF : forall l, Forall (fine n) l -> Forall (fine (n + 1)) l).
  { intros l. apply Forall_impl. intros x H. apply (fine_mono n); [exact H|lia]. }
  assert (MK : forall l, Forall (known U) l -> Forall (known (U ++ draws C w c)) l).
  { intros l. apply Forall_impl. intros x H. exact (known_mono _ _ _ H IU). }
  (* with a fresh key nothing is used yet *)
  assert (FRESH : forall A l s0 s1 (late : bool), Forall (known U) A -> (forall q, (count_occ pos_dec P q + sum q A <= 1 + L)%nat) ->
      known U s0 -> (forall q, (count_occ pos_dec P q + can q s0 <= Nat.max 1 L)%nat) ->
      (forall q, (sum q l <= sum q A + count_occ bdec (draws C w c) (fst q) + if late then 1 else 0)%nat /\
         (can q s1 <= (if late then sum q A else can q s0) + count_occ bdec (draws C w c) (fst q))%nat) ->
      forall q, (count_occ pos_dec P q + sum q l <= 1 + (L + if late then 1 else 0))%nat /\
        (count_occ pos_dec P q + can q s1 <= Nat.max 1 (L + if late then 1 else 0))%nat).
  { intros A l s0 s1 late KA HA K0 H0 HL q. specialize (HL q). specialize (HA q). specialize (H0 q).
    pose proof (known_sum U [s0] q (Forall_cons _ K0 (Forall_nil _))) as Z0. rewrite sum_cons in Z0. destruct (nodup_count U (draws C w c) (fst q) ND) as [N1 N2].
    destruct (count_occ bdec (draws C w c) (fst q)) as [|[|k]]; [destruct late; lia| |lia].
    assert (NU : ~ In (fst q) U) by (apply N2; lia). specialize (Z0 NU).
    rewrite (not_used P U q (ri_used _ _ _ _ _ I) NU), (known_sum U A q KA NU) in *. destruct late; lia. }
  destruct W as [r d pt b ty s' E|r d ty b rnd m r1 pt r' O SD R|r d b rbase rratchet spk r1 Eb Er];
    cbn [peer_of] in Hp; injection Hp as -> ->.
  - unfold LoadSession in *. destruct (w_sess w rid dev) as [[cur prevs]|] eqn:ES; [|discriminate E].
    cbn [r_cur r_prevs] in *. destruct (ri_sess _ _ _ _ _ I _ _ ES) as (A1 & A2 & A3 & A4).
    inversion A1 as [|? ? A1a A1b]; subst. inversion A2 as [|? ? A2a A2b]; subst.
    destruct A1a as (sc & c & Hs & Hc & Hi & Hv & Hpr & Hl & Hpp).
    apply ss_encrypt_inv in E. destruct E as (sc' & c' & ct & H1 & H2 & _ & _ & _ & _ & -> & _).
    rewrite Hs in H1. injection H1 as <-. rewrite Hc in H2. injection H2 as <-.
    split; [constructor; [|now apply MF]|]; [|split; [constructor; [|now apply MK]|]].
    + eexists _, _. cbn [with_sender s_sender s_version s_prev s_lreg s_pending]. split; [reflexivity|]. cbn [ch_ck]. split; [reflexivity|].
      unfold getNextChainKey. cbn [ck_index]. rewrite Z.mod_small by lia. repeat (split; [lia|]). exact Hpp.
    + destruct A2a as [A2a|(sc' & E1 & E2)]; [contradiction|]. right. eexists. cbn [with_sender s_sender]. split; [reflexivity|]. cbn [ch_rpub].
      rewrite Hs in E1. injection E1 as <-. now apply IU.
    + cbn [with_sender s_recv]. split; [exact A3|]. intros q. destruct (A4 q) as [A4a A4b]. rewrite !sum_cons in *.
      enough (can q (with_sender cur (Some (mkChain (ch_rpub sc) (ch_rpriv sc) (Some (getNextChainKey C c)) (ch_mks sc)))) <= can q cur)%nat by lia.
      unfold can. cbn [with_sender s_recv s_sender]. destruct (s_recv cur); [contradiction|]. rewrite Hs. cbn [ch_ck ch_rpub]. rewrite Hc.
      unfold getNextChainKey. cbn [ck_index]. rewrite Z.mod_small by lia.
      destruct (beq (ch_rpub sc) (fst q)); cbn [andb]; [|lia]. destruct (Z.leb_spec (ck_index c + 1) (snd q)), (Z.leb_spec (ck_index c) (snd q)); lia.
  - assert (LF : late_for C w rid dev (CRecv rid dev ty b rnd) = negb (is_ok (fst (ss_decrypt C (r_cur r1) m (rnd 0%nat))))).
    { unfold late_for. cbn [peer_of fst snd late]. rewrite beq_refl, Z.eqb_refl, (opened_reads _ _ _ _ _ _ _ _ O), R. reflexivity. }
    rewrite LF. clear LF.
    assert (A : exists A, Forall (known U) A /\ (forall q, (count_occ pos_dec P q + sum q A <= 1 + L)%nat) /\
       (forall q, sum q (r_cur r1 :: r_prevs r1) <= sum q A)%nat /\ Forall (fine n) (r_cur r1 :: r_prevs r1) /\
       Forall (known U) (r_cur r1 :: r_prevs r1) /\ (length (r_prevs r1) <= 1 + length (r_prevs (LoadSession w rid dev)))%nat /\
       forall q, (count_occ pos_dec P q + can q (r_cur r1) <= Nat.max 1 L)%nat).
    { assert (SAME : r1 = LoadSession w rid dev -> exists A, Forall (known U) A /\ (forall q, (count_occ pos_dec P q + sum q A <= 1 + L)%nat) /\
         (forall q, sum q (r_cur r1 :: r_prevs r1) <= sum q A)%nat /\ Forall (fine n) (r_cur r1 :: r_prevs r1) /\
         Forall (known U) (r_cur r1 :: r_prevs r1) /\ (length (r_prevs r1) <= 1 + length (r_prevs (LoadSession w rid dev)))%nat /\
         forall q, (count_occ pos_dec P q + can q (r_cur r1) <= Nat.max 1 L)%nat).
      { intros ->. unfold LoadSession in *. destruct (w_sess w rid dev) as [[cur prevs]|] eqn:ES; [|discriminate SD].
        cbn [r_cur r_prevs] in *. destruct (ri_sess _ _ _ _ _ I _ _ ES) as (A1 & A2 & A3 & A4). exists (cur :: prevs).
        split; [exact A2|]. split; [intros q; apply A4|]. split; [reflexivity|]. split; [exact A1|]. split; [exact A2|]. split; [lia|]. intros q; apply A4. }
      destruct ty; cbn [opened] in O; [now apply SAME|]. destruct O as (pm & pkid & l & _ & _ & B). apply build_recv_inv in B.
      destruct B as [(E & _)|(spk & otk & r2 & _ & E2 & E)]; [injection E as _ ->; now apply SAME|]. injection E as _ ->. clear SAME.
      cbn [r_cur r_prevs].
      assert (EC : r_cur r2 = empty_ss).
      { rewrite E2. unfold LoadSession. destruct (w_sess w rid dev) as [[cur prevs]|]; reflexivity. }
      rewrite EC. set (s0 := with_regs _ _ _ _).
      assert (S0 : s_recv s0 = [] /\ fine n s0).
      { unfold s0, initializeReceiverSession. cbv zeta. destruct (calculateDerivedKeys C _) as [root0 ck0] eqn:EK.
        apply (calculateDerivedKeys_ok C OK) in EK. split; [reflexivity|]. eexists _, ck0. cbn.
        split; [reflexivity|]. split; [reflexivity|]. pose proof (ri_reg _ _ _ _ _ I) as HR. destruct EK as (_ & _ & EK). rewrite EK.
        split; [lia|]. split; [reflexivity|]. split; [lia|]. split; [exact HR|]. intros p E. discriminate E. }
      destruct S0 as [S0 S1]. clearbody s0.
      assert (Z0 : forall q, can q s0 = 0%nat) by (intros q; unfold can; now rewrite S0).
      assert (CNT : forall q, (count_occ pos_dec P q + can q s0 <= Nat.max 1 L)%nat) by (intros q; rewrite Z0, Nat.add_0_r; apply (ri_count _ _ _ _ _ I)).
      unfold LoadSession in E2 |- *. destruct (w_sess w rid dev) as [[cur prevs]|] eqn:ES; cbn [r_fresh NewSessionRecord] in E2; subst r2.
      - cbn [archiveCurrentState promoteState r_prevs r_cur]. destruct (ri_sess _ _ _ _ _ I _ _ ES) as (A1 & A2 & A3 & A4). exists (cur :: prevs).
        split; [exact A2|]. split; [intros q; apply A4|]. split; [intros q; rewrite sum_cons, Z0; apply sum_trunc|].
        split; [constructor; [exact S1|now apply trunc]|]. split; [constructor; [now left|now apply trunc]|].
        split; [|exact CNT]. destruct (Nat.ltb 40 (length (cur :: prevs))); [|reflexivity]. clear.
        enough (X : forall l : list sstate, (length (removelast l) <= length l)%nat) by apply X.
        induction l as [|x l IH]; [cbn; lia|]. cbn [removelast]. destruct l; [cbn; lia|]. cbn [length] in *. lia.
      - exists []. split; [constructor|]. split; [intros q; cbn; pose proof (ri_count _ _ _ _ _ I q); lia|].
        cbn [NewSessionRecord r_prevs]. split; [intros q; rewrite sum_cons, Z0; cbn; lia|].
        split; [constructor; [exact S1|constructor]|]. split; [constructor; [now left|constructor]|]. split; [cbn; lia|exact CNT]. }
    destruct A as (A & B1 & B2 & B3 & B4 & B5 & B6 & B7).
    assert (IK : incl (keys rnd 0 (1 + length (r_prevs r1))) (draws C w (CRecv rid dev ty b rnd))).
    { intros x Hx. cbn [draws]. apply in_map_iff in Hx. destruct Hx as (j & <- & Hj). apply in_map_iff. exists j. split; [reflexivity|].
      apply in_seq in Hj. apply in_seq. lia. }
    destruct (sc_step n (U ++ draws C w (CRecv rid dev ty b rnd)) r1 m rnd pt r' ltac:(lia) B4 (MK _ B5) (fun x Hx => ID x (IK x Hx)) SD) as (D1 & D2 & D3 & D4).
    split; [now apply MF|]. split; [exact D2|]. split; [exact D3|].
    apply (FRESH A _ (r_cur r1)); [exact B1|exact B2|now inversion B5|exact B7|].
    intros q. specialize (D4 q). specialize (B3 q).
    pose proof (seq_prefix rnd (1 + length (r_prevs r1)) (2 + length (r_prevs (LoadSession w rid dev))) (fst q) ltac:(lia)) as X.
    cbn [draws]. destruct (is_ok _); cbn [negb]; lia.
  - assert (LF : late_for C w rid dev (CBuild rid dev b rbase rratchet) = false).
    { unfold late_for. cbn [late]. now rewrite andb_false_r. }
    rewrite LF. clear LF.
    assert (EC : r_cur r1 = empty_ss).
    { rewrite Er. unfold LoadSession. destruct (w_sess w rid dev) as [[cur prevs]|]; reflexivity. }
    assert (A : exists A, Forall (known U) A /\ (forall q, (count_occ pos_dec P q + sum q A <= 1 + L)%nat) /\
       (forall q, sum q (r_prevs r1) <= sum q A)%nat /\ Forall (fine n) (r_prevs r1) /\ Forall (known U) (r_prevs r1)).
    { unfold LoadSession in Er. destruct (w_sess w rid dev) as [[cur prevs]|] eqn:ES; cbn [r_fresh NewSessionRecord] in Er; subst r1.
      - cbn [archiveCurrentState promoteState r_prevs r_cur]. destruct (ri_sess _ _ _ _ _ I _ _ ES) as (A1 & A2 & A3 & A4). exists (cur :: prevs).
        split; [exact A2|]. split; [intros q; apply A4|]. split; [intros q; apply sum_trunc|]. split; now apply trunc.
      - exists []. split; [constructor|]. split; [intros q; cbn; pose proof (ri_count _ _ _ _ _ I q); lia|].
        cbn [NewSessionRecord r_prevs]. split; [intros q; cbn; lia|]. split; constructor. }
    destruct A as (A & B1 & B2 & B3 & B4 & B5). rewrite EC. unfold initializeSenderSession. cbv zeta.
    destruct (calculateDerivedKeys C _) as [root0 ck0]. destruct (createChain C root0 spk (clamp rratchet)) as [root1 sck] eqn:E1.
    pose proof (createChain_ok C OK _ _ _ _ _ E1) as (_ & _ & I1).
    set (s0 := with_regs _ _ _ _).
    assert (S1 : fine (n + 1) s0).
    { eexists _, _. unfold s0. cbn [with_regs with_pending with_root with_sender with_recv with_ids s_sender s_version s_prev s_lreg s_pending].
      split; [reflexivity|]. cbn [ch_ck]. split; [reflexivity|]. rewrite I1. split; [lia|]. split; [reflexivity|]. cbn [empty_ss s_prev].
      split; [lia|]. split; [apply (ri_reg _ _ _ _ _ I)|]. intros p E. injection E as <-. exact T. }
    assert (S2 : s_sender s0 = Some (mkChain (basepub C (clamp rratchet)) (clamp rratchet) (Some sck) [])) by reflexivity.
    assert (S3 : s_recv s0 <> []).
    { unfold s0. cbn [with_regs with_pending with_root with_sender with_recv with_ids s_recv empty_ss]. unfold addReceiverChain. cbn [app length Nat.ltb Nat.leb tl]. discriminate. }
    clearbody s0. split; [constructor; [exact S1|now apply MF]|]. split.
    { constructor; [|now apply MK]. right. eexists. split; [exact S2|]. cbn [ch_rpub]. apply in_or_app. right. now left. }
    split; [exact S3|].
    apply (FRESH A _ empty_ss s0 false); [exact B1|exact B2|now left|intros q; cbn; rewrite Nat.add_0_r; apply (ri_count _ _ _ _ _ I)|].
    intros q. rewrite sum_cons. specialize (B3 q). cbn [can empty_ss s_recv]. rewrite Nat.add_0_r.
    enough (can q s0 <= count_occ bdec (draws C w (CBuild rid dev b rbase rratchet)) (fst q))%nat by lia.
    cbn [draws count_occ]. destruct (bdec (basepub C (clamp rratchet)) (fst q)) as [_|N]; [apply can_1|].
    unfold can. rewrite S2. destruct (s_recv s0); [lia|]. cbn [ch_ck ch_rpub].
    destruct (beq (basepub C (clamp rratchet)) (fst q)) eqn:B; [apply beq_eq in B; contradiction|]. cbn [andb]. lia.
Qed.

Lemma estep_rinv U P n L w e w' out : rinv U P n L w -> 0 <= n < 2 ^ 32 - 1 -> call_typed (ecall e) -> NoDup (U ++ draws C w (ecall e)) ->
  estep C w e = (w', out) ->
  exists P', positions rid dev out = map Some P' /\
    rinv (U ++ draws C w (ecall e)) (P ++ P') (n + 1) (L + if late_for C w rid dev (ecall e) then 1 else 0) w'.
Proof.
  intros I Hn T ND E.
  assert (G : exists k, w' = apply_effs w (firstn k (snd (perform_call C w (ecall e)))) /\
     out = match e with Done c => snd (fst (perform_call C w c)) | Crash _ _ => [] end).
  { destruct e as [c|c k]; cbn [estep ecall] in *; destruct (perform_call C w c) as [[b o] l]; injection E as <- <-.
    - exists (length l). cbn [snd fst]. now rewrite firstn_all.
    - exists k. auto. }
  destruct G as (k & -> & Eo). set (c := ecall e) in *. set (x := if late_for C w rid dev c then 1%nat else 0%nat).
  assert (IU : incl U (U ++ draws C w c)) by (intros y Hy; apply in_or_app; now left).
  assert (SILENT : rinv (U ++ draws C w c) P (n + 1) (L + x) (apply_effs w (firstn k (snd (perform_call C w c))))).
  { constructor.
    - intros rk ctr Hin. apply IU. eapply (ri_used _ _ _ _ _ I); eauto.
    - rewrite apply_effs_reg. apply (ri_reg _ _ _ _ _ I).
    - intros q. pose proof (ri_count _ _ _ _ _ I q). lia.
    - intros s p HS. destruct (call_sessions C w c k rid dev) as [X|(Hp & s1 & p1 & W & X)]; rewrite X in HS.
      + destruct (ri_sess _ _ _ _ _ I _ _ HS) as (A1 & A2 & A3 & A4).
        split; [revert A1; apply Forall_impl; intros y H; apply (fine_mono n); [exact H|lia]|].
        split; [revert A2; apply Forall_impl; intros y H; exact (known_mono _ _ _ H IU)|]. split; [exact A3|].
        intros q. specialize (A4 q). lia.
      + injection HS as <- <-. exact (writes_rinv U P n L w c s1 p1 I Hn Hp W T ND). }
  destruct e as [c0|c0 k0]; cbn [ecall] in c; subst c.
  2:{ exists []. subst out. split; [reflexivity|]. rewrite app_nil_r. exact SILENT. }
  destruct c0 as [r d pt|r d ty b rnd|r d b rbase rratchet].
  2:{ exists []. rewrite app_nil_r. split; [|exact SILENT].
      subst out. cbn [perform_call]. now destruct (receive C w r d ty b rnd). }
  2:{ exists []. rewrite app_nil_r. split; [|exact SILENT].
      subst out. cbn [perform_call]. now destruct (BuildSenderSession C w r d b rbase rratchet). }
  assert (X0 : x = 0%nat) by (unfold x, late_for; cbn [late]; now rewrite andb_false_r).
  rewrite X0 in *. clear x X0. rewrite Nat.add_0_r in *.
  cbn [estep perform_call draws] in *. rewrite app_nil_r in *.
  destruct (SessionEncryptMessage C w r d pt) as [[[b ty]|e|] l] eqn:EE;
    try (exists []; subst out; split; [reflexivity|]; rewrite app_nil_r; exact SILENT).
  cbn [fst snd] in *. assert (out = [mkSent r d ty b]) as -> by congruence.
  assert (EW : apply_effs w (firstn k l) = apply_effs w l) by congruence. rewrite EW in *.
  unfold positions. cbn [filter]. unfold for_peer. cbn [se_rid se_dev].
  destruct (beq r rid && (d =? dev)) eqn:B.
  2:{ exists []. split; [reflexivity|]. rewrite app_nil_r. exact SILENT. }
  apply andb_true_iff in B. destruct B as [B1 B2]. apply beq_eq in B1. apply Z.eqb_eq in B2. subst r d.
  unfold SessionEncryptMessage, LoadSession in EE. destruct (w_sess w rid dev) as [[cur prevs]|] eqn:ES; [|discriminate].
  cbn [r_cur r_prevs] in EE. destruct (ss_encrypt C cur pt) as [[[b' ty'] s']|e|] eqn:SE; try discriminate.
  injection EE as -> -> <-.
  destruct (ri_sess _ _ _ _ _ I _ _ ES) as (A1 & A2 & A3 & A4).
  inversion A1 as [|? ? A1a A1b]; subst. inversion A2 as [|? ? A2a A2b]; subst.
  destruct A1a as (sc & c & Hs & Hc & Hi & Hv & Hpr & Hl & Hpp).
  assert (POS : position ty b = Some (ch_rpub sc, ck_index c)).
  { eapply position_produced; eauto. lia. }
  exists [(ch_rpub sc, ck_index c)]. cbn [map se_type se_bytes]. rewrite POS. split; [reflexivity|].
  assert (HU : In (ch_rpub sc) U).
  { destruct A2a as [A2a|(sc' & E1 & E2)]; [contradiction|]. rewrite Hs in E1. injection E1 as <-. exact E2. }
  apply ss_encrypt_inv in SE. destruct SE as (sc' & c' & ct & H1 & H2 & _ & _ & _ & _ & -> & _).
  rewrite Hs in H1. injection H1 as <-. rewrite Hc in H2. injection H2 as <-.
  set (s' := with_sender _ _) in *.
  assert (CN : forall q, (count_occ pos_dec [(ch_rpub sc, ck_index c)] q + can q s' <= can q cur)%nat).
  { intros q. unfold s', can. cbn [with_sender s_recv s_sender]. destruct (s_recv cur); [contradiction|]. rewrite Hs. cbn [ch_ck ch_rpub]. rewrite Hc.
    unfold getNextChainKey. cbn [ck_index]. rewrite Z.mod_small by lia. cbn [count_occ]. destruct q as [rk ctr]. cbn [fst snd].
    destruct (pos_dec (ch_rpub sc, ck_index c) (rk, ctr)) as [E0|N].
    - injection E0 as <- <-. rewrite beq_refl. cbn [andb]. destruct (Z.leb_spec (ck_index c + 1) (ck_index c)), (Z.leb_spec (ck_index c) (ck_index c)); lia.
    - destruct (beq (ch_rpub sc) rk); cbn [andb]; [|lia]. destruct (Z.leb_spec (ck_index c + 1) ctr), (Z.leb_spec (ck_index c) ctr); lia. }
  constructor.
  - intros rk ctr. rewrite in_app_iff. intros [H|[H|[]]]; [eapply (ri_used _ _ _ _ _ I); eauto|]. injection H as <- <-. exact HU.
  - rewrite apply_effs_reg. apply (ri_reg _ _ _ _ _ I).
  - intros q. rewrite count_occ_app. destruct (A4 q) as [A4a A4b]. specialize (CN q). lia.
  - intros s p HS. destruct (ri_sess _ _ _ _ _ SILENT _ _ HS) as (S1 & S2 & S3 & _). split; [exact S1|]. split; [exact S2|]. split; [exact S3|].
    cbn [apply_effs fold_left apply_eff set_sess w_sess] in HS. rewrite beq_refl, Z.eqb_refl in HS. cbn [andb] in HS.
    injection HS as <- <-. intros q. rewrite count_occ_app. destruct (A4 q) as [A4a A4b]. rewrite sum_cons in *. specialize (CN q). lia.
Qed.

Theorem positions_bound h : forall U P n L w, rinv U P n L w -> 0 <= n -> n + Z.of_nat (length h) < 2 ^ 32 ->
  Forall (fun e => call_typed (ecall e)) h -> NoDup (U ++ all_draws C w h) ->
  exists P', positions rid dev (snd (history C w h)) = map Some P' /\
    forall q, (count_occ pos_dec (P ++ P') q <= Nat.max 1 (L + late_count C rid dev w h))%nat.
Proof.
  induction h as [|e h IH]; intros U P n L w I Hn Hl T ND.
  - exists []. split; [reflexivity|]. rewrite app_nil_r. intros q. cbn [late_count]. rewrite Nat.add_0_r. apply (ri_count _ _ _ _ _ I).
  - cbn [history all_draws late_count] in *. destruct (estep C w e) as [w1 out] eqn:E. cbn [fst] in *. destruct (history C w1 h) as [w2 outs] eqn:EH. cbn [snd].
    inversion T as [|? ? T1 T2]; subst. rewrite app_assoc in ND. cbn [length] in Hl.
    destruct (estep_rinv U P n L w e w1 out) as (P1 & EP1 & I1); auto; try lia.
    { eapply NoDup_app_l; eauto. }
    destruct (IH _ _ _ _ _ I1) as (P2 & EP2 & N2); auto; try lia.
    rewrite EH in EP2. cbn [snd] in EP2. exists (P1 ++ P2). split.
    + unfold positions in *. rewrite filter_app, !map_app. congruence.
    + intros q. rewrite app_assoc. specialize (N2 q). lia.
Qed.
End R.
