(* How often a place of a session can be taken when archived sessions accept messages too: each such
   acceptance leaves one more copy of a session in the record (promoteState, session.go 310-316, puts the
   session in front and leaves it where it was), and each copy takes a place at most once. Used for C191. *)
From Coq Require Import ZArith List Lia Bool.
From Verif Require Import Bytes Res Wire Crypto Cbc Messages MessagesProofs Session SessionProofs Builder
  Conversation ConversationProofs History HistoryProofs Active ActiveLink Replay Injective.
Import ListNotations.
Open Scope Z_scope.

Definition aterm_eq_dec (x y : aterm) : {x = y} + {x <> y}.
Proof.
  decide equality; try apply Nat.eq_dec; apply (list_eq_dec Z.eq_dec).
Defined.

(* the session that a message is first tried with, and the rest of the record *)
Definition reads (C : crypto) (w : world) (rid : bytes) (dev : Z) (ty : mtype) (b : bytes) : option (wmsg * srecord) :=
  match ty with
  | CIPHERTEXT => match LoadWhisperMessage b with Ok m => Some (m, LoadSession w rid dev) | _ => None end
  | PREKEY_BUNDLE =>
      match LoadPreKeyWhisperMessage b with
      | Ok pm => match fst (BuildReceiverSession C w rid (LoadSession w rid dev) pm) with
                 | Ok (_, r1) => Some (pk_msg pm, r1)
                 | _ => None
                 end
      | _ => None
      end
  end.
(* a call that takes a message with an archived session *)
Definition late (C : crypto) (w : world) (c : call) : bool :=
  match c with
  | CRecv rid dev ty b rnd =>
      match reads C w rid dev ty b with
      | Some (m, r1) => is_ok (fst (receive C w rid dev ty b rnd)) && negb (is_ok (fst (ss_decrypt C (r_cur r1) m (rnd 0%nat))))
      | None => false
      end
  | _ => false
  end.
Definition late_for (C : crypto) (w : world) (rid : bytes) (dev : Z) (c : call) : bool :=
  beq (fst (peer_of c)) rid && (snd (peer_of c) =? dev) && late C w c.
Lemma opened_reads C w rid dev ty b m r1 : opened C w rid dev ty b m r1 -> reads C w rid dev ty b = Some (m, r1).
Proof.
  destruct ty; cbn [opened reads].
  - intros [-> ->]. reflexivity.
  - intros (pm & pkid & l & -> & -> & ->). reflexivity.
Qed.

(* ------------------------------------------------------------------------------------------ *)
Section A.
Variable C : crypto.
Hypothesis OK : crypto_ok C.
Variable priv : bytes -> option bytes.
Hypothesis priv_ok : forall k x, priv k = Some x -> basepub C x = k.
Variable bases signeds : bytes -> Prop.
Notation ev := (aeval C priv).
Notation mine := (mine C priv).
Notation ck_at := (ck_at C priv).
Notation mk_at := (mk_at C priv).
Notation state_at := (state_at C priv bases signeds).
Notation node_ok := (node_ok C priv bases signeds).
Notation holds := (holds C priv bases signeds).
Notation chain_g := (chain_g C priv).

(* a session that is tried in vain has no more places open than before *)
Lemma decrypt_keeps U me a p s m rnd r s' : holds U me a p s -> mine (clamp rnd) -> ss_decrypt C s m rnd = (r, s') ->
  exists p', holds U me a p' s'.
Proof.
  intros HH Hn H. unfold ss_decrypt in H. destruct (s_sender s) as [sc|]; [|injection H as _ <-; eauto].
  destruct (negb _); [injection H as _ <-; eauto|].
  destruct (getOrCreateChainKey C s (wm_rkey m) rnd) as [[c0 s1]| |] eqn:E1; [|injection H as _ <-; eauto..].
  destruct (chain_located C OK priv priv_ok bases signeds _ _ _ _ _ _ _ _ _ HH Hn E1)
    as (p' & G & rc & q & i & js & HS1 & HR1 & HB1 & Ef & HG & ND & -> & HU & Hrc & l1 & l2 & K1 & K2 & El & EG & F1 & F2 & EU).
  destruct (getOrCreateMessageKeys C s1 (wm_rkey m) (ck_at a q i) (wm_counter m)) as [r2 s2] eqn:E2.
  assert (Hrc' := Hrc). destruct Hrc' as (Q1 & Q2 & Q3 & Q4 & Q5). cbn [gpath fst snd] in Q1, Q2, Q3, Q4, Q5.
  destruct (ActiveLink.gocmk_at C OK priv bases signeds me a p' s1 (wm_rkey m) rc q i (wm_counter m) r2 s2 HS1 Ef Q1 Q2) as (HS2 & HR2 & _).
  { rewrite Q3. apply Forall_forall. intros mk Hmk. apply in_map_iff in Hmk. destruct Hmk as (j & <- & _). eauto. }
  { exact E2. }
  assert (G1 : holds U me a p' s1).
  { constructor; [exact HS1|apply HH|rewrite HB1; apply HH|]. exists G. auto. }
  assert (G2 : holds U me a p' s2).
  { destruct r2 as [mk| |].
    - destruct (key_located C OK priv bases signeds U a p' s1 (wm_rkey m) G rc q i js l1 l2 K1 K2 (wm_counter m) mk s2 HU Ef Hrc EG EU E2)
        as (j & i' & js' & -> & NU & HB2 & Er & Lj & Nj & ND' & F' & Li & Keep).
      constructor; [exact HS2|apply HH|rewrite HB2, HB1; apply HH|].
      rewrite Er. exists (K1 ++ (q, i', js') :: K2). split; [|split].
      + apply Forall2_app; [exact F1|]. constructor; [|exact F2]. split; [exact Q1|]. cbn. auto.
      + rewrite EG in ND. rewrite map_app in ND |- *. exact ND.
      + intros q0 j0 Hu.
        destruct (HU _ _ Hu) as [L0 Hg]. split; [exact L0|]. intros g HI Eg. rewrite EG in Hg.
        apply in_app_or in HI. destruct HI as [HI|[<-|HI]].
        * apply Hg; [apply in_or_app; now left|exact Eg].
        * cbn [gpath fst snd] in *. destruct (Hg (q, i, js)) as [Hg1 Hg2]; [apply in_or_app; right; now left|exact Eg|].
          cbn [fst snd] in Hg1, Hg2. split; [lia|auto].
        * apply Hg; [apply in_or_app; right; now right|exact Eg].
    - assert (E : s2 = s1); [|now rewrite E]. clear -E2. unfold getOrCreateMessageKeys in E2.
      destruct (_ >? _); [destruct (find_chain _ _); [destruct (take_mk _ _) as [[? ?]|]|]; congruence|].
      destruct (too_far _ _ _); [congruence|]. destruct (find_chain _ _); [destruct (skip_keys _ _ _ _)|]; congruence.
    - assert (E : s2 = s1); [|now rewrite E]. clear -E2. unfold getOrCreateMessageKeys in E2.
      destruct (_ >? _); [destruct (find_chain _ _); [destruct (take_mk _ _) as [[? ?]|]|]; congruence|].
      destruct (too_far _ _ _); [congruence|]. destruct (find_chain _ _); [destruct (skip_keys _ _ _ _)|]; congruence. }
  exists p'. destruct r2 as [mk| |]; [|now injection H as _ <-..].
  destruct (key32 (s_remote s2)), (key32 (s_local s2)); try (now injection H as _ <-).
  destruct (negb _); [now injection H as _ <-|]. destruct (Decrypt _ _ _); injection H as _ <-; try exact G2.
  constructor; try apply G2. constructor; apply G2.
Qed.

(* ------------------------------------------------------------------------------------------ *)
(* the account of a session of the record: its agreement and the places at which it took messages *)
Notation acct := (agreement * list aterm)%type.
Definition sok (me : bytes) (s : sstate) (x : acct) : Prop :=
  (exists p, holds (fun t => In t (snd x)) me (fst x) p s) /\ forall t, In t (snd x) -> exists q j, t = a_ck (fst x) q j.
Definition has_t (t : aterm) (x : acct) : bool := if in_dec aterm_eq_dec t (snd x) then true else false.
Definition has_b (b : bytes) (x : acct) : bool := beq b (ag_base (fst x)).
Definition cnt (f : acct -> bool) (l : list acct) : nat := length (filter f l).
(* a session begun with base key b that has not taken t *)
Definition opn (b : bytes) (t : aterm) (x : acct) : bool := has_b b x && negb (has_t t x).
(* L: the places at which messages were taken; P t: how many sessions were copied by messages of places
   other than t *)
Definition within (P : aterm -> nat) (L : list aterm) (A : list acct) : Prop := forall t b,
  (forall x, In x A -> In t (snd x) -> ag_base (fst x) = b) ->
  (count_occ aterm_eq_dec L t + cnt (opn b t) A <= 1 + P t)%nat.
Definition accounts (P : aterm -> nat) (L : list aterm) (w : world) (rid : bytes) (dev : Z) : Prop :=
  match w_sess w rid dev with
  | None => L = []
  | Some (s, ps) => exists A, Forall2 (sok (snd (w_ident w))) (s :: ps) A /\
      (forall t, (count_occ aterm_eq_dec L t <= cnt (has_t t) A)%nat) /\ within P L A
  end.

Lemma has_t_in t x : has_t t x = true <-> In t (snd x).
Proof. unfold has_t. destruct (in_dec _ _ _); split; intros; auto; try discriminate; contradiction. Qed.
Lemma cnt_app f l m : cnt f (l ++ m) = (cnt f l + cnt f m)%nat.
Proof. unfold cnt. rewrite filter_app, app_length. reflexivity. Qed.
Lemma cnt_cons f x l : cnt f (x :: l) = ((if f x then 1 else 0) + cnt f l)%nat.
Proof. unfold cnt. cbn [filter]. destruct (f x); reflexivity. Qed.
Lemma cnt_le f g l : (forall x, In x l -> f x = true -> g x = true) -> (cnt f l <= cnt g l)%nat.
Proof.
  induction l as [|x l IH]; intros H; [apply le_n|]. rewrite !cnt_cons.
  assert (X := IH (fun y Hy => H y (or_intror Hy))). specialize (H x (or_introl eq_refl)).
  destruct (f x); [rewrite H by reflexivity|destruct (g x)]; lia.
Qed.
Lemma cnt_zero f l : (forall x, In x l -> f x = false) -> cnt f l = 0%nat.
Proof.
  induction l as [|x l IH]; intros H; [reflexivity|]. rewrite cnt_cons, IH by (intros; apply H; now right).
  now rewrite (H x (or_introl eq_refl)).
Qed.
Lemma cnt_pos f l : (0 < cnt f l)%nat -> exists x, In x l /\ f x = true.
Proof.
  induction l as [|x l IH]; intros H; [unfold cnt in H; cbn in H; lia|]. rewrite cnt_cons in H. destruct (f x) eqn:E.
  - exists x. split; [now left|exact E].
  - destruct IH as (y & H1 & H2); [exact H|]. exists y. split; [now right|exact H2].
Qed.

Lemma Forall2_len {X Y} (R : X -> Y -> Prop) l m : Forall2 R l m -> length l = length m.
Proof. intros H. induction H; cbn [length]; congruence. Qed.

(* so no place is taken more often than that *)
Lemma accounts_bound P L w rid dev t : accounts P L w rid dev -> (count_occ aterm_eq_dec L t <= 1 + P t)%nat.
Proof.
  unfold accounts. destruct (w_sess w rid dev) as [[s ps]|]; [|intros ->; cbn; lia].
  intros (A & HF & HT & HB). specialize (HT t). destruct (Nat.eq_dec (cnt (has_t t) A) 0) as [E|N]; [lia|].
  destruct (cnt_pos (has_t t) A ltac:(lia)) as (x & Hx & Ex). apply has_t_in in Ex.
  enough ((count_occ aterm_eq_dec L t + cnt (opn (ag_base (fst x)) t) A <= 1 + P t)%nat) by lia. apply HB.
  assert (G : forall y, In y A -> exists z, In z (s :: ps) /\ sok (snd (w_ident w)) z y).
  { clear -HF. induction HF as [|z y l A Hz HF IH]; intros y0 Hy; [destruct Hy|]. destruct Hy as [<-|Hy].
    - exists z. split; [now left|exact Hz].
    - destruct (IH _ Hy) as (z0 & H1 & H2). exists z0. split; [now right|exact H2]. }
  intros y Hy Ey.
  destruct (G x Hx) as (z & _ & (p & Hz) & Tz). destruct (G y Hy) as (z' & _ & (p' & Hz') & Tz').
  destruct (Tz _ Ex) as (q & j & ->). destruct (Tz' _ Ey) as (q' & j' & E). apply ck_same in E. destruct E as (_ & _ & E).
  symmetry. exact (km_base (snd (w_ident w)) _ _ (ho_side _ _ _ _ _ _ _ _ _ Hz) (ho_side _ _ _ _ _ _ _ _ _ Hz') E).
Qed.
(* a session begun with another base key than those of the record *)
Lemma within_new P L A a : within P L A -> (forall t, (count_occ aterm_eq_dec L t <= cnt (has_t t) A)%nat) ->
  (forall x, In x A -> ag_base (fst x) <> ag_base a) -> within P L ((a, []) :: A).
Proof.
  intros HB HT HN t b H. rewrite cnt_cons. unfold opn at 1, has_b at 1, has_t at 1. cbn [fst snd in_dec].
  destruct (in_dec aterm_eq_dec t []) as [[]|_]. cbn [negb]. rewrite andb_true_r.
  destruct (beq b (ag_base a)) eqn:Eb.
  - apply beq_eq in Eb. subst b.
    assert (Z1 : cnt (opn (ag_base a) t) A = 0%nat).
    { apply cnt_zero. intros x Hx. unfold opn, has_b. destruct (beq (ag_base a) (ag_base (fst x))) eqn:E; [|reflexivity].
      apply beq_eq in E. exfalso. exact (HN x Hx (eq_sym E)). }
    assert (Z2 : cnt (has_t t) A = 0%nat).
    { apply cnt_zero. intros x Hx. apply not_true_iff_false. rewrite has_t_in. intros Ht. apply (HN x Hx). apply H; [now right|exact Ht]. }
    specialize (HT t). lia.
  - specialize (HB t b). rewrite Nat.add_0_l. apply HB. intros x Hx. apply H. now right.
Qed.

(* ------------------------------------------------------------------------------------------ *)
(* one message *)
Notation fact := (fun me m (pt : bytes) (s2 : sstate) a q j => length (s_remote s2) = 32%nat /\ length me = 32%nat /\
    verifyMAC C m (s_remote s2) me (ev (a_mk a q j 32 32)) = true /\
    Decrypt C (ev (a_mk a q j 0 32)) (ev (a_mk a q j 64 16) ++ wm_ct m) = Ok pt).
Lemma sok_fail me s x m rnd r s' : sok me s x -> mine (clamp rnd) -> ss_decrypt C s m rnd = (r, s') -> sok me s' x.
Proof.
  intros [(p & HH) HT] Hn H. destruct (decrypt_keeps _ _ _ _ _ _ _ _ _ HH Hn H) as (p' & H'). split; [eauto|exact HT].
Qed.
Lemma sok_take me s x m rnd pt s' : sok me s x -> mine (clamp rnd) -> ss_decrypt C s m rnd = (Ok pt, s') ->
  exists q j, ~ In (a_ck (fst x) q j) (snd x) /\ sok me s' (fst x, a_ck (fst x) q j :: snd x) /\
    (exists p', state_at me (fst x) p' s') /\ fact me m pt s' (fst x) q j.
Proof.
  intros [(p & HH) HT] Hn H.
  destruct (decrypt_new C OK priv priv_ok bases signeds _ me _ p s m rnd pt s' HH Hn H) as (p' & q & j & N1 & N2 & N3 & N4 & N5 & N6 & N7 & N8).
  exists q, j. split; [exact N1|]. split; [|split; [exists p'; apply N2|auto]]. split.
  - exists p'. cbn [fst snd]. destruct N2 as [M1 M2 M3 (G & M4 & M5 & M6)]. constructor; auto. exists G. split; [exact M4|]. split; [exact M5|].
    intros q0 j0 Hu. apply M6. destruct Hu as [Hu|Hu]; [right; now symmetry|left; exact Hu].
  - cbn [fst snd]. intros t [<-|Ht]; eauto.
Qed.
Lemma try_take me l A m rnd : Forall2 (sok me) l A -> (forall i, mine (clamp (rnd i))) -> forall i pt s2 l',
  try_prevs C l m rnd i = (Ok (Some (pt, s2)), l') ->
  exists A1 x A2 q j, A = A1 ++ x :: A2 /\ ~ In (a_ck (fst x) q j) (snd x) /\
    let x' := (fst x, a_ck (fst x) q j :: snd x) in
    sok me s2 x' /\ Forall2 (sok me) l' (A1 ++ x' :: A2) /\ (exists p', state_at me (fst x) p' s2) /\ fact me m pt s2 (fst x) q j.
Proof.
  intros HF Hn. induction HF as [|s x l A Hs HF IH]; intros i pt s2 l' H; cbn [try_prevs] in H; [discriminate H|].
  destruct (ss_decrypt C s m (rnd i)) as [[pt0|e|] s'] eqn:E; [| |discriminate H].
  - injection H as <- <- <-. destruct (sok_take _ _ _ _ _ _ _ Hs (Hn i) E) as (q & j & H1 & H2 & H3 & H4).
    exists [], x, A, q, j. split; [reflexivity|]. split; [exact H1|]. cbv zeta. split; [exact H2|].
    split; [constructor; assumption|]. auto.
  - destruct (try_prevs C l m rnd (S i)) as [r0 t'] eqn:E2. injection H as -> <-.
    destruct (IH _ _ _ _ E2) as (A1 & y & A2 & q & j & -> & H1 & H2 & H3 & H4 & H5).
    exists (x :: A1), y, A2, q, j. split; [reflexivity|]. split; [exact H1|]. cbv zeta. split; [exact H2|].
    split; [|auto]. cbn [app]. constructor; [|exact H3]. exact (sok_fail _ _ _ _ _ _ _ Hs (Hn i) E).
Qed.

(* room for what one call can add to the record *)
Definition roomy (w : world) (rid : bytes) (dev : Z) : Prop :=
  forall s ps, w_sess w rid dev = Some (s, ps) -> (length ps < 39)%nat.
Lemma roomy_short w rid dev : roomy w rid dev -> short w rid dev.
Proof. intros H s ps E. apply H in E. lia. Qed.

Lemma cntT_take t x x' A B : snd x' = t :: snd x -> ~ In t (snd x) -> forall t0,
  (count_occ aterm_eq_dec [t] t0 + cnt (has_t t0) (A ++ x :: B) <= cnt (has_t t0) (A ++ x' :: B))%nat.
Proof.
  intros Ex Nx t0. rewrite !cnt_app, !cnt_cons. cbn [count_occ].
  destruct (aterm_eq_dec t t0) as [<-|N].
  - assert (E1 : has_t t x = false) by (apply not_true_iff_false; now rewrite has_t_in).
    assert (E2 : has_t t x' = true) by (rewrite has_t_in, Ex; now left). rewrite E1, E2. lia.
  - assert (E : has_t t0 x = true -> has_t t0 x' = true) by (rewrite !has_t_in, Ex; now right).
    destruct (has_t t0 x); [rewrite E by reflexivity|destruct (has_t t0 x')]; lia.
Qed.
Lemma opn_other b t0 (x x' : acct) t : fst x' = fst x -> snd x' = t :: snd x -> t <> t0 -> opn b t0 x' = opn b t0 x.
Proof.
  intros E1 E2 N. unfold opn, has_b. rewrite E1. f_equal. f_equal. apply eq_true_iff_eq. rewrite !has_t_in, E2. cbn [In]. tauto.
Qed.
Lemma opn_taken b t (x x' : acct) : fst x' = fst x -> snd x' = t :: snd x -> ~ In t (snd x) -> ag_base (fst x') = b ->
  opn b t x' = false /\ opn b t x = true.
Proof.
  intros E1 E2 N E. unfold opn, has_b. rewrite <- E1, E, beq_refl.
  assert (H1 : has_t t x' = true) by (rewrite has_t_in, E2; now left).
  assert (H2 : has_t t x = false) by (apply not_true_iff_false; now rewrite has_t_in). rewrite H1, H2. auto.
Qed.
Lemma within_take P L A B x x' t : within P L (A ++ x :: B) -> fst x' = fst x -> snd x' = t :: snd x -> ~ In t (snd x) ->
  within P (t :: L) (A ++ x' :: B).
Proof.
  intros HB E1 E2 N t0 b H.
  assert (H0 : forall y, In y (A ++ x :: B) -> In t0 (snd y) -> ag_base (fst y) = b).
  { intros y Hy Ht. apply in_app_or in Hy. destruct Hy as [Hy|[<-|Hy]].
    - apply H; [apply in_or_app; now left|exact Ht].
    - rewrite <- E1. apply H; [apply in_or_app; right; now left|rewrite E2; now right].
    - apply H; [apply in_or_app; right; now right|exact Ht]. }
  specialize (HB t0 b H0). rewrite cnt_app, cnt_cons in HB |- *. cbn [count_occ]. destruct (aterm_eq_dec t t0) as [<-|Nt].
  - destruct (opn_taken b t x x' E1 E2 N) as [G1 G2].
    { apply H; [apply in_or_app; right; now left|rewrite E2; now left]. }
    rewrite G1, G2 in *. lia.
  - rewrite (opn_other b t0 x x' t E1 E2 Nt). exact HB.
Qed.
Lemma within_copy P L A x t : within P L A -> In x A -> In t (snd x) ->
  within (fun t0 => P t0 + if aterm_eq_dec t t0 then 0 else 1)%nat L (x :: A).
Proof.
  intros HB Hx Ht t0 b H. specialize (HB t0 b). rewrite cnt_cons.
  assert (X : (count_occ aterm_eq_dec L t0 + cnt (opn b t0) A <= 1 + P t0)%nat) by (apply HB; intros y Hy; apply H; now right).
  destruct (aterm_eq_dec t t0) as [<-|N]; [|destruct (opn b t0 x); lia].
  assert (Eo : opn b t x = false). { unfold opn. apply has_t_in in Ht. rewrite Ht. cbn [negb]. apply andb_false_r. }
  rewrite Eo. lia.
Qed.
Lemma within_perm P L A x y : within P L (x :: y :: A) -> within P L (y :: x :: A).
Proof.
  intros HB t b H. rewrite !cnt_cons. specialize (HB t b). rewrite !cnt_cons in HB.
  enough (forall z, In z (x :: y :: A) -> In t (snd z) -> ag_base (fst z) = b) by (specialize (HB H0); lia).
  intros z Hz. apply H. cbn [In] in *. tauto.
Qed.

(* the record a message is tried with *)
Lemma opened_accounts P L w rid dev ty b m r1 : node_ok w -> accounts P L w rid dev -> roomy w rid dev ->
  opened C w rid dev ty b m r1 -> (r1 = NewSessionRecord /\ w_sess w rid dev = None) \/
  (length (r_prevs r1) < 40)%nat /\ exists A, Forall2 (sok (snd (w_ident w))) (r_cur r1 :: r_prevs r1) A /\
    (forall t, (count_occ aterm_eq_dec L t <= cnt (has_t t) A)%nat) /\ within P L A.
Proof.
  intros HW HA HR HO. set (me := snd (w_ident w)) in *.
  destruct (opened_at C OK priv priv_ok bases signeds _ _ _ _ _ _ _ HW HO) as [->|(base & a & H1 & H2 & H3 & H4 & H5 & H6 & H7 & H8)].
  - unfold accounts, LoadSession, roomy in *. destruct (w_sess w rid dev) as [[s ps]|]; [right|left; auto].
    cbn [r_cur r_prevs]. split; [specialize (HR _ _ eq_refl); lia|exact HA].
  - right. rewrite (arch_prevs _ _ _ (roomy_short _ _ _ HR)) in H8.
    assert (HN : sok me (r_cur r1) (a, [])).
    { split; [|intros t []]. exists []. cbn [fst snd]. apply (new_holds C priv bases signeds _ me []).
      - intros t [].
      - exact H3.
      - now right.
      - now rewrite H2.
      - intros x [].
      - now left. }
    unfold accounts in HA. destruct (w_sess w rid dev) as [[s ps]|] eqn:E.
    + destruct HA as (A & HF & HT & HB). rewrite H8. split; [apply HR in E; cbn [length]; lia|].
      exists ((a, []) :: A). split; [constructor; assumption|]. split.
      * intros t. specialize (HT t). rewrite cnt_cons. lia.
      * apply within_new; [exact HB|exact HT|]. intros x Hx Ex. rewrite H2 in Ex.
        assert (G : exists z, In z (s :: ps) /\ sok me z x).
        { clear -HF Hx. induction HF as [|z y l A Hz HF IH]; [destruct Hx|]. destruct Hx as [<-|Hx].
          - exists z. split; [now left|exact Hz].
          - destruct (IH Hx) as (z0 & G1 & G2). exists z0. split; [now right|exact G2]. }
        destruct G as (z & Hz & (p & HH) & _). apply (no_state _ _ _ z H1).
        -- unfold LoadSession. rewrite E. exact Hz.
        -- unfold getSessionVersion. rewrite (sa_version _ _ _ _ _ _ _ _ (ho_state _ _ _ _ _ _ _ _ _ HH)). reflexivity.
        -- rewrite (ho_base _ _ _ _ _ _ _ _ _ HH), Ex. reflexivity.
    + rewrite H8. split; [cbn; lia|]. exists [(a, [])]. split; [constructor; [exact HN|constructor]|]. split.
      * intros t. rewrite HA. cbn. lia.
      * rewrite HA. apply within_new; [intros t b0 _; cbn; lia|intros t; cbn; lia|intros x []].
Qed.

Lemma decrypt_accounts P L w rid dev ty b rnd m r1 pt r' : node_ok w -> accounts P L w rid dev -> roomy w rid dev ->
  (forall i, mine (clamp (rnd i))) -> opened C w rid dev ty b m r1 -> sc_decrypt C r1 m rnd = (Ok pt, r') ->
  let me := snd (w_ident w) in
  exists a q j A, (exists p, state_at me a p (r_cur r')) /\ fact me m pt (r_cur r') a q j /\
    Forall2 (sok me) (r_cur r' :: r_prevs r') A /\
    (forall t, (count_occ aterm_eq_dec (a_ck a q j :: L) t <= cnt (has_t t) A)%nat) /\
    within (fun t0 => P t0 + if is_ok (fst (ss_decrypt C (r_cur r1) m (rnd 0%nat))) then 0 else if aterm_eq_dec (a_ck a q j) t0 then 0 else 1)%nat
      (a_ck a q j :: L) A.
Proof.
  intros HW HA HR Hn HO HD me.
  destruct (opened_accounts P L w rid dev ty b m r1 HW HA HR HO) as [[-> _]|(HL & A & HF & HT & HB)]; [discriminate HD|].
  fold me in HF. unfold sc_decrypt in HD. inversion HF as [|s0 x l0 A0 Hs HF0]; subst.
  destruct (ss_decrypt C (r_cur r1) m (rnd 0%nat)) as [[pt0|e|] s'] eqn:E; [| |discriminate HD].
  - injection HD as <- <-. destruct (sok_take _ _ _ _ _ _ _ Hs (Hn 0%nat) E) as (q & j & H1 & H2 & H3 & H4).
    cbn [r_cur r_prevs fst is_ok]. set (x' := (fst x, a_ck (fst x) q j :: snd x) : acct) in *. exists (fst x), q, j, (x' :: A0).
    split; [exact H3|]. split; [exact H4|]. split; [constructor; assumption|]. split.
    + intros t. pose proof (cntT_take (a_ck (fst x) q j) x x' [] A0 eq_refl H1 t) as X. cbn [app] in X.
      specialize (HT t). cbn [count_occ] in *. revert X. destruct (aterm_eq_dec _ _); intros X; lia.
    + intros t b0 H. rewrite Nat.add_0_r. revert t b0 H. exact (within_take P L [] A0 x x' _ HB eq_refl eq_refl H1).
  - destruct (try_prevs C (r_prevs r1) m rnd 1) as [[[[pt1 s2]|]| |] l'] eqn:E2; try discriminate HD. injection HD as <- <-.
    destruct (try_take _ _ _ _ _ HF0 Hn _ _ _ _ E2) as (A1 & y & A2 & q & j & -> & H1 & H2 & H3 & H4 & H5). cbv zeta in H2, H3.
    set (y' := (fst y, a_ck (fst y) q j :: snd y) : acct) in *.
    assert (HL' : length l' = length (r_prevs r1)).
    { apply Forall2_len in H3. apply Forall2_len in HF0. rewrite H3, HF0, !app_length. reflexivity. }
    assert (EP : r_prevs (promoteState (mkSr s' l' (r_fresh r1)) s2) = s' :: l').
    { unfold promoteState. cbn [r_cur r_prevs]. destruct (Nat.ltb_spec 40 (length (s' :: l'))) as [X|]; [cbn [length] in X; lia|reflexivity]. }
    rewrite EP. change (r_cur (promoteState (mkSr s' l' (r_fresh r1)) s2)) with s2. cbn [fst is_ok].
    exists (fst y), q, j, (y' :: x :: A1 ++ y' :: A2). split; [exact H4|]. split; [exact H5|].
    split; [constructor; [exact H2|]; constructor; [exact (sok_fail _ _ _ _ _ _ _ Hs (Hn 0%nat) E)|exact H3]|]. split.
    + intros t. pose proof (cntT_take (a_ck (fst y) q j) y y' (x :: A1) A2 eq_refl H1 t) as X. cbn [app] in X.
      specialize (HT t). rewrite (cnt_cons _ y'). cbn [count_occ] in *. revert X. destruct (aterm_eq_dec _ _); intros X; lia.
    + apply within_copy; [|right; apply in_or_app; right; now left|now left].
      exact (within_take P L (x :: A1) A2 y y' _ HB eq_refl eq_refl H1).
Qed.

(* one event *)
Lemma step_accounts P L w e rid dev : node_ok w -> accounts P L w rid dev -> roomy w rid dev ->
  own_keys C priv bases (ecall e) -> (peer_of (ecall e) = (rid, dev) -> fresh_base C w (ecall e)) ->
  w_ident (fst (estep C w e)) = w_ident w ->
  let more := late_for C w rid dev (ecall e) in
  (forall ty b rnd pt l s ps, e = Done (CRecv rid dev ty b rnd) -> receive C w rid dev ty b rnd = (Ok pt, l) ->
      w_sess (apply_effs w l) rid dev = Some (s, ps) ->
      exists a p q j wh m, whisper_of ty b = Some wh /\ LoadWhisperMessage wh = Ok m /\
        accounts (fun t => P t + if more then if aterm_eq_dec (a_ck a q j) t then 0 else 1 else 0)%nat (a_ck a q j :: L) (fst (estep C w e)) rid dev /\
        state_at (snd (w_ident w)) a p s /\ fact (snd (w_ident w)) m pt s a q j) /\
  ((forall ty b rnd pt l, e = Done (CRecv rid dev ty b rnd) -> receive C w rid dev ty b rnd <> (Ok pt, l)) ->
     accounts (fun t => P t + if more then 1 else 0)%nat L (fst (estep C w e)) rid dev).
Proof.
  intros HW HA HR HK HFB HI more. set (me := snd (w_ident w)) in *. split.
  - intros ty b rnd pt l s ps -> HRc HS.
    destruct (recv_done _ _ _ _ _ _ _ _ _ HRc) as (wh & m & r1 & r' & W1 & W2 & HO & HD & HE).
    destruct (decrypt_accounts P L w rid dev ty b rnd m r1 pt r' HW HA HR HK HO HD) as (a & q & j & A & (p & H1) & H2 & H3 & H4 & H5).
    rewrite HE in HS. injection HS as <- <-. exists a, p, q, j, wh, m. split; [exact W1|]. split; [exact W2|].
    split; [|auto]. assert (EF : fst (estep C w (Done (CRecv rid dev ty b rnd))) = apply_effs w l).
    { cbn [estep perform_call]. rewrite HRc. reflexivity. }
    rewrite EF in HI |- *. unfold accounts. rewrite HE, HI. exists A. split; [exact H3|]. split; [exact H4|].
    intros t b0 H. specialize (H5 t b0 H). unfold more, late_for. cbn [ecall peer_of fst snd late]. rewrite beq_refl, Z.eqb_refl, (opened_reads _ _ _ _ _ _ _ _ HO), HRc.
    cbn [fst is_ok andb]. destruct (is_ok (fst (ss_decrypt _ _ _ _))); cbn [negb]; exact H5.
  - intros NR.
    assert (MONO : forall w', accounts P L w' rid dev -> accounts (fun t => P t + if more then 1 else 0)%nat L w' rid dev).
    { intros w' H. unfold accounts in *. destruct (w_sess w' rid dev) as [[s ps]|]; [|exact H]. destruct H as (A & H1 & H2 & H3).
      exists A. split; [exact H1|]. split; [exact H2|]. intros t b0 H0. specialize (H3 t b0 H0). lia. }
    destruct (estep_sess C rid dev w e) as [E|(HP & s & ps & HWr & E)].
    + apply MONO. unfold accounts in *. now rewrite E, HI.
    + specialize (HFB HP).
      destruct HWr as [rid' dev' pt b ty s' HEn|rid' dev' ty b rnd m r1 pt r' HO HS HRc|rid' dev' b rbase rratchet spk r1 Hspk Hr1];
        cbn [peer_of] in HP; injection HP as -> ->.
      * apply MONO. unfold accounts in *. rewrite E, HI. unfold LoadSession in *. destruct (w_sess w rid dev) as [[s0 ps0]|]; [|discriminate HEn].
        cbn [r_cur r_prevs] in *. destruct HA as (A & HF & HT & HB). inversion HF as [|? x ? A0 Hs HF0]; subst. exists (x :: A0).
        split; [|auto]. constructor; [|exact HF0]. destruct Hs as [(p & HH) HX]. split; [|exact HX]. exists p.
        now destruct (holds_enc C priv bases signeds _ _ _ _ _ _ _ _ _ HH HEn).
      * destruct (decrypt_accounts P L w rid dev ty b rnd m r1 pt r' HW HA HR HK HO HS) as (a & q & j & A & _ & _ & H3 & H4 & H5).
        unfold accounts. rewrite E, HI. exists A. split; [exact H3|]. split.
        -- intros t. specialize (H4 t). cbn [count_occ] in H4. destruct (aterm_eq_dec _ _); lia.
        -- intros t b0 H. specialize (H5 t b0 H). unfold more, late_for. cbn [ecall peer_of late fst snd].
           rewrite beq_refl, Z.eqb_refl, (opened_reads _ _ _ _ _ _ _ _ HO), HRc. cbn [is_ok andb]. cbn [count_occ] in H5.
           destruct (is_ok (fst (ss_decrypt _ _ _ _))), (aterm_eq_dec (a_ck a q j) t); cbn [negb]; lia.
      * cbn [own_keys ecall] in HK. destruct HK as (K1 & K2 & K3). cbn [fresh_base] in HFB. destruct HFB as [B1 B2].
        assert (EP : r_prevs r1 = match w_sess w rid dev with None => [] | Some (s, ps) => s :: ps end).
        { rewrite Hr1. apply arch_prevs, roomy_short, HR. }
        assert (EC : r_cur r1 = empty_ss).
        { rewrite Hr1. unfold LoadSession. destruct (w_sess w rid dev) as [[s0 ps0]|]; reflexivity. }
        rewrite EC in *.
        destruct (built_at C OK priv priv_ok bases signeds w b spk rbase rratchet HW K1 K2 K3) as (a & k & c & A1 & A2 & A3 & A4 & A5).
        apply MONO. unfold accounts. rewrite E, HI, EP.
        match goal with |- exists A, Forall2 _ (?s :: _) A /\ _ => set (s0 := s) in * end.
        assert (HN : sok me s0 (a, [])).
        { split; [|intros t []]. exists [k]. cbn [fst snd]. apply (new_holds C priv bases signeds _ me []).
          - intros t [].
          - exact A3.
          - left. split; [exact A1|]. unfold me. congruence.
          - unfold s0. cbn [with_regs s_base]. now rewrite A2.
          - intros x [].
          - right. exists k, c. auto. }
        unfold accounts in HA. destruct (w_sess w rid dev) as [[s1 ps1]|] eqn:Ew.
        -- destruct HA as (A & HF & HT & HB). exists ((a, []) :: A). split; [constructor; assumption|]. split.
           ++ intros t. specialize (HT t). rewrite cnt_cons. lia.
           ++ apply within_new; [exact HB|exact HT|]. intros x Hx Ex.
              assert (G : exists z, In z (s1 :: ps1) /\ sok me z x).
              { clear -HF Hx. induction HF as [|z y l A Hz HF IH]; [destruct Hx|]. destruct Hx as [<-|Hx].
                - exists z. split; [now left|exact Hz].
                - destruct (IH Hx) as (z0 & G1 & G2). exists z0. split; [now right|exact G2]. }
              destruct G as (z & Hz & (p & HH) & _). apply (B2 s1 ps1 z eq_refl Hz).
              rewrite (ho_base _ _ _ _ _ _ _ _ _ HH), Ex, A2. reflexivity.
        -- exists [(a, [])]. split; [constructor; [exact HN|constructor]|]. split.
           ++ intros t. rewrite HA. cbn. lia.
           ++ rewrite HA. apply within_new; [intros t b0 _; cbn; lia|intros t; cbn; lia|intros x []].
Qed.
End A.
