(* C42 a request to the helper process that is answered returns; C86 requests are not mixed up. *)
From Coq Require Import ZArith List Lia Bool.
From Verif Require Import Bytes Crayfish.
Import ListNotations.
Open Scope Z_scope.

(* ---- lists ---- *)
Lemma set_nth_length {A} i (x : A) l : length (set_nth i x l) = length l.
Proof. revert i. induction l as [|y l IH]; intros [|i]; cbn [set_nth length]; auto. Qed.
Lemma nth_error_set_same {A} i (x : A) l : (i < length l)%nat -> nth_error (set_nth i x l) i = Some x.
Proof. revert i. induction l as [|y l IH]; intros [|i] H; cbn [set_nth nth_error length] in *; try lia; [reflexivity|]. apply IH. lia. Qed.
Lemma nth_error_set_other {A} i j (x : A) l : i <> j -> nth_error (set_nth i x l) j = nth_error l j.
Proof. revert i j. induction l as [|y l IH]; intros [|i] [|j] H; cbn [set_nth nth_error]; auto; try congruence. Qed.
Lemma in_set_nth {A} i (x y : A) l : In y (set_nth i x l) -> y = x \/ In y l.
Proof.
  revert i. induction l as [|z l IH]; intros [|i]; cbn [set_nth In]; auto.
  - intros [H|H]; auto.
  - intros [H|H]; [auto|]. destruct (IH _ H); auto.
Qed.
Lemma set_nth_last {A} (x y : A) l i : i = length l -> set_nth i x (l ++ [y]) = l ++ [x].
Proof. intros ->. induction l as [|z l IH]; cbn [app length set_nth]; [reflexivity|now rewrite IH]. Qed.

Section S.
Variable helper : bytes -> resp.
Hypothesis answers : forall m, 1 < fst (helper m).

(* the answers that are on their way *)
Definition isans (r : resp) : bool := 1 <? fst r.
Definition full (b : option resp) : bool := match b with Some _ => true | None => false end.
Definition away (s : cstate) : nat := (length (sendq s) + length (inflight s) + length (filter isans (incoming s)))%nat.
Definition kept (s : cstate) : nat := length (filter full (bufs s)).

(* what holds while one request at a time is made *)
Record good (s : cstate) (cs : list client) (q : bytes) (p : pc) : Prop := {
  g_clients : clients s = cs ++ [mkCl q p];
  g_old : forall c, In c cs -> c_pc c = PDone (helper (c_req c));
  g_reader : reader s = None;
  g_send : forall m, In m (sendq s) -> m = q;
  g_flight : forall m, In m (inflight s) -> m = q;
  g_in : forall r, In r (incoming s) -> 1 < fst r -> r = helper q;
  g_bufs : forall r, In (Some r) (bufs s) -> r = helper q;
  g_one : (away s + kept s <= 1)%nat;
  g_quiet : p = PSend \/ (exists r, p = PDone r) -> (away s + kept s = 0)%nat;
  g_done : forall r, p = PDone r -> r = helper q;
  g_rc : forall ch, rc s = Some ch -> (ch < length (bufs s))%nat;
  g_new : p = PEval \/ (exists ch, p = PRecv ch) -> rc s = Some (pred (length (bufs s)));
  g_recv : forall ch, p = PRecv ch -> rc s = Some ch }.

Definition idle (s : cstate) : Prop :=
  clients s = [] /\ reader s = None /\ sendq s = [] /\ inflight s = [] /\ bufs s = [] /\ rc s = None /\
  (forall r, In r (incoming s) -> ~ 1 < fst r).
Definition inv (s : cstate) : Prop := idle s \/ exists cs q p, good s cs q p.

Lemma filter_app_len {A} (f : A -> bool) a b : length (filter f (a ++ b)) = (length (filter f a) + length (filter f b))%nat.
Proof. now rewrite filter_app, app_length. Qed.
Lemma kept_some l ch r : nth_error l ch = Some None -> length (filter full (set_nth ch (Some r) l)) = S (length (filter full l)).
Proof.
  revert ch. induction l as [|b l IH]; intros [|ch] H; cbn [nth_error set_nth] in *; try discriminate.
  - injection H as ->. reflexivity.
  - cbn [filter]. destruct (full b); cbn [length]; now rewrite IH.
Qed.
Lemma kept_none l ch r : nth_error l ch = Some (Some r) -> S (length (filter full (set_nth ch None l))) = length (filter full l).
Proof.
  revert ch. induction l as [|b l IH]; intros [|ch] H; cbn [nth_error set_nth] in *; try discriminate.
  - injection H as ->. reflexivity.
  - cbn [filter]. destruct (full b); cbn [length]; now rewrite <- (IH _ H).
Qed.
Lemma kept_in l ch r : nth_error l ch = Some (Some r) -> (1 <= length (filter full l))%nat.
Proof. intros H. rewrite <- (kept_none l ch r H). lia. Qed.
Lemma remove_nth_length {A} k (l : list A) x : nth_error l k = Some x -> S (length (remove_nth k l)) = length l.
Proof.
  intros H. assert (k < length l)%nat by (apply nth_error_Some; congruence). unfold remove_nth.
  rewrite app_length, firstn_length, skipn_length. lia.
Qed.
Lemma remove_nth_in {A} k (l : list A) x : In x (remove_nth k l) -> In x l.
Proof.
  unfold remove_nth. rewrite <- (firstn_skipn k l) at 3. intros H. apply in_app_or in H. apply in_or_app.
  destruct H as [H|H]; [now left|right]. clear - H. revert l H. induction k as [|k IH]; intros [|y l] H; cbn [skipn] in *; auto. now right.
Qed.

Ltac start G := destruct G as [Gc Go Gr Gs Gf Gi Gb G1 Gq Gd Grc Gn Gv].
Ltac cbnc := cbn [rc bufs sendq inflight incoming reader clients] in *.

Lemma client_last s cs q p i c : good s cs q p -> nth_error (clients s) i = Some c ->
  (i = length cs /\ c = mkCl q p) \/ (exists r, c_pc c = PDone r).
Proof.
  intros G H. start G. rewrite Gc in H. destruct (Nat.lt_ge_cases i (length cs)) as [L|L].
  - right. rewrite nth_error_app1 in H by exact L. apply nth_error_In in H. eauto.
  - left. rewrite nth_error_app2 in H by exact L. destruct (i - length cs)%nat eqn:D; cbn [nth_error] in H; [|destruct n; discriminate].
    injection H as <-. split; [lia|reflexivity].
Qed.

Lemma good_start s cs q p r : good s cs q p -> (exists x, p = PDone x) ->
  good (mkC (rc s) (bufs s) (sendq s) (inflight s) (incoming s) (reader s) (clients s ++ [mkCl r PSend])) (cs ++ [mkCl q p]) r PSend.
Proof.
  intros G [x ->]. start G. assert (Q : (away s + kept s = 0)%nat) by (apply Gq; eauto).
  assert (Z1 : sendq s = []) by (apply length_zero_iff_nil; unfold away in Q; lia).
  assert (Z2 : inflight s = []) by (apply length_zero_iff_nil; unfold away in Q; lia).
  assert (Z3 : filter isans (incoming s) = []) by (apply length_zero_iff_nil; unfold away in Q; lia).
  assert (Z4 : filter full (bufs s) = []) by (apply length_zero_iff_nil; unfold kept in Q; lia).
  constructor; cbnc; try (solve [rewrite ?Z1, ?Z2; intros ? []]).
  - now rewrite Gc.
  - intros c H. apply in_app_or in H. destruct H as [H|[<-|[]]]; [now apply Go|]. cbn [c_pc c_req]. f_equal. now apply Gd.
  - exact Gr.
  - intros y I L. exfalso. assert (In y (filter isans (incoming s))).
    { apply filter_In. split; [exact I|]. apply Z.ltb_lt. exact L. }
    rewrite Z3 in H. exact H.
  - intros y I. exfalso. assert (In (Some y) (filter full (bufs s))) by (apply filter_In; now split).
    rewrite Z4 in H. exact H.
  - unfold away, kept in *. cbnc. lia.
  - intros _. unfold away, kept in *. cbnc. lia.
  - intros ? E. discriminate.
  - exact Grc.
  - intros [E|[? E]]; discriminate.
  - intros ? E. discriminate.
Qed.

(* everything but starting a request *)
Lemma good_step e s s' cs q p : good s cs q p -> step helper e s = Some s' ->
  (forall r, e <> EStart r) -> exists p', good s' cs q p'.
Proof.
  intros G ST NS. pose proof G as G0. start G. destruct e as [r|i| |k|m| | |]; cbn [step] in ST.
  - now destruct (NS r).
  - destruct (nth_error (clients s) i) as [c|] eqn:E; [|discriminate].
    destruct (client_last _ _ _ _ _ _ G0 E) as [[-> ->]|[r R]]; [|rewrite R in ST; discriminate].
    cbn [c_pc c_req] in ST. destruct p as [| | |ch|r].
    + destruct (Nat.ltb _ 256); [|discriminate]. injection ST as <-. exists PMake.
      assert (Q : (away s + kept s = 0)%nat) by (apply Gq; now left).
      constructor; cbnc; auto; try (intros; discriminate).
      * unfold set_pc. rewrite Gc. cbn [c_req]. now apply set_nth_last.
      * intros y I. apply in_app_or in I. destruct I as [I|[<-|[]]]; auto.
      * unfold away, kept in *. cbnc. rewrite app_length. cbn [length]. lia.
      * intros [E'|[? E']]; discriminate.
      * intros [E'|[? E']]; discriminate.
    + injection ST as <-. exists PEval. constructor; cbnc; auto; try (intros; discriminate).
      * unfold set_pc. rewrite Gc. cbn [c_req]. now apply set_nth_last.
      * intros r I. apply in_app_or in I. destruct I as [I|[I|[]]]; [auto|discriminate].
      * unfold away, kept in *. cbnc. rewrite filter_app_len. cbn [filter full length]. lia.
      * intros [E'|[? E']]; discriminate.
      * intros ch [= <-]. rewrite app_length. cbn [length]. lia.
      * intros _. rewrite app_length. cbn [length]. f_equal. lia.
    + destruct (rc s) as [ch|] eqn:R; [|discriminate]. injection ST as <-. exists (PRecv ch).
      constructor; cbnc; auto; try (intros; discriminate).
      * unfold set_pc. rewrite Gc. cbn [c_req]. now apply set_nth_last.
      * intros [E'|[? E']]; discriminate.
      * intros ch' [= <-]. reflexivity.
    + destruct (nth_error (bufs s) ch) as [[r|]|] eqn:N; [|discriminate|discriminate]. injection ST as <-. exists (PDone r).
      assert (r = helper q) by (apply Gb; now apply nth_error_In in N). subst r.
      pose proof (kept_none _ _ _ N) as K. unfold away, kept in *.
      constructor; cbnc; auto; try (intros; discriminate).
      * unfold set_pc. rewrite Gc. cbn [c_req]. now apply set_nth_last.
      * intros r I. apply in_set_nth in I. destruct I as [I|I]; [discriminate|auto].
      * unfold away, kept. cbnc. lia.
      * intros _. unfold away, kept. cbnc. lia.
      * intros r [= <-]. reflexivity.
      * intros c H. rewrite set_nth_length. auto.
      * intros [E'|[? E']]; discriminate.
    + discriminate.
  - destruct (sendq s) as [|m t] eqn:E; [discriminate|]. injection ST as <-. exists p. unfold away, kept in *. rewrite E in *.
    constructor; cbnc; auto; unfold away, kept; cbnc; rewrite ?app_length; cbn [length] in *; try lia.
    + intros y I. apply Gs. now right.
    + intros y I. apply in_app_or in I. destruct I as [I|[<-|[]]]; [auto|]. apply Gs. now left.
    + intros H. specialize (Gq H). lia.
  - destruct (nth_error (inflight s) k) as [m|] eqn:E; [|discriminate]. injection ST as <-. exists p.
    pose proof (remove_nth_length _ _ _ E) as L. apply nth_error_In in E. pose proof (Gf _ E). subst m.
    assert (IA : isans (helper q) = true) by (apply Z.ltb_lt; apply answers).
    unfold away, kept in *. constructor; cbnc; auto; unfold away, kept; cbnc; rewrite ?filter_app_len; cbn [filter]; rewrite ?IA; cbn [length]; try lia.
    + intros y I. apply remove_nth_in in I. auto.
    + intros y I H. apply in_app_or in I. destruct I as [I|[<-|[]]]; auto.
    + intros H. specialize (Gq H). lia.
  - injection ST as <-. exists p. unfold away, kept in *.
    constructor; cbnc; auto; unfold away, kept; cbnc; rewrite ?filter_app_len; cbn [filter]; change (isans (1, m)) with false; cbv iota; cbn [length]; try lia.
    + intros y I H. apply in_app_or in I. destruct I as [I|[<-|[]]]; [auto|]. cbn [fst] in H. lia.
    + intros H. specialize (Gq H). lia.
  - rewrite Gr in ST. destruct (incoming s) as [|r t] eqn:E; [discriminate|].
    assert (Sub : forall y, In y t -> 1 < fst y -> y = helper q) by (intros; apply Gi; [now right|assumption]).
    assert (Len : (length (filter isans t) <= length (filter isans (r :: t)))%nat) by (cbn [filter]; destruct (isans r); cbn [length]; lia).
    unfold away, kept in *. rewrite E in *.
    assert (Drop : good (mkC (rc s) (bufs s) (sendq s) (inflight s) t None (clients s)) cs q p).
    { constructor; cbnc; auto; unfold away, kept; cbnc; try lia. intros H. specialize (Gq H). lia. }
    destruct (rc s) as [ch|] eqn:R; [|injection ST as <-; eauto].
    destruct (1 <? fst r) eqn:A; [|injection ST as <-; eauto].
    cbn [filter] in *. replace (isans r) with true in * by (symmetry; exact A). cbn [length] in *.
    assert (Hr : r = helper q) by (apply Gi; [now left|now apply Z.ltb_lt]).
    destruct (nth_error (bufs s) ch) as [[x|]|] eqn:N.
    + exfalso. apply kept_in in N. lia.
    + injection ST as <-. exists p. pose proof (kept_some _ _ r N) as K.
      constructor; cbnc; auto; unfold away, kept; cbnc; try lia.
      * intros y I. apply in_set_nth in I. destruct I as [I|I]; [congruence|auto].
      * intros H. specialize (Gq H). lia.
      * intros c H. rewrite set_nth_length. auto.
      * intros H. rewrite set_nth_length. auto.
    + exfalso. apply nth_error_None in N. specialize (Grc ch eq_refl). lia.
  - rewrite Gr in ST. discriminate.
  - rewrite Gr in ST. injection ST as <-. exists p. unfold away, kept in *.
    constructor; cbnc; auto; unfold away, kept; cbnc; cbn [filter length]; try lia; try (solve [intros ? []]).
    intros H. specialize (Gq H). lia.
Qed.

Lemma idle_step e s s' : idle s -> step helper e s = Some s' ->
  idle s' \/ exists r, e = EStart r /\ good s' [] r PSend.
Proof.
  intros (H1 & H2 & H3 & H4 & H5 & H6 & H7) ST. destruct e as [r|i| |k|m| | |]; cbn [step] in ST.
  - right. exists r. split; [reflexivity|]. injection ST as <-.
    assert (F : filter isans (incoming s) = []).
    { destruct (filter isans (incoming s)) as [|y l] eqn:E; [reflexivity|]. exfalso.
      assert (I : In y (filter isans (incoming s))) by (rewrite E; now left). apply filter_In in I. destruct I as [I J].
      apply (H7 y I). now apply Z.ltb_lt. }
    constructor; cbnc; rewrite ?H1, ?H3, ?H4, ?H5, ?H6; auto; try (intros; discriminate); try (solve [intros ? []]).
    + intros y I L. now destruct (H7 y I).
    + unfold away, kept. cbnc. rewrite ?H3, ?H4, ?H5, F. cbn. lia.
    + intros _. unfold away, kept. cbnc. rewrite ?H3, ?H4, ?H5, F. reflexivity.
    + intros E. destruct E as [E|[? E]]; discriminate.
  - rewrite H1 in ST. destruct i; discriminate.
  - rewrite H3 in ST. discriminate.
  - rewrite H4 in ST. destruct k; discriminate.
  - left. injection ST as <-. repeat split; cbnc; auto. intros y I. apply in_app_or in I. destruct I as [I|[<-|[]]]; [auto|cbn; lia].
  - left. rewrite H2, H6 in ST. destruct (incoming s) as [|r t] eqn:E; [discriminate|]. injection ST as <-.
    repeat split; cbnc; auto. intros y I. apply H7. now right.
  - rewrite H2 in ST. discriminate.
  - left. rewrite H2 in ST. injection ST as <-. repeat split; cbnc; auto.
Qed.

Lemma inv_run es : forall s s', inv s -> sequential helper es s -> run helper es s = Some s' -> inv s'.
Proof.
  induction es as [|e es IH]; intros s s' I Q R; cbn [run sequential] in *; [now injection R as <-|].
  destruct Q as [Q1 Q2]. destruct (step helper e s) as [s1|] eqn:ST; [|discriminate]. apply (IH s1); auto.
  destruct I as [I|(cs & q & p & G)].
  - destruct (idle_step _ _ _ I ST) as [H|(r & _ & H)]; [now left|right; eauto].
  - right. destruct e as [r|i| |k|m| | |].
    + cbn [step] in ST. injection ST as <-. exists (cs ++ [mkCl q p]), r, PSend. apply good_start; [exact G|].
      destruct (Q1 (mkCl q p)) as [x X]; [|now exists x]. rewrite (g_clients _ _ _ _ G). apply in_or_app. right. now left.
    + destruct (good_step _ _ _ _ _ _ G ST) as [p' H]; [discriminate|eauto].
    + destruct (good_step _ _ _ _ _ _ G ST) as [p' H]; [discriminate|eauto].
    + destruct (good_step _ _ _ _ _ _ G ST) as [p' H]; [discriminate|eauto].
    + destruct (good_step _ _ _ _ _ _ G ST) as [p' H]; [discriminate|eauto].
    + destruct (good_step _ _ _ _ _ _ G ST) as [p' H]; [discriminate|eauto].
    + destruct (good_step _ _ _ _ _ _ G ST) as [p' H]; [discriminate|eauto].
    + destruct (good_step _ _ _ _ _ _ G ST) as [p' H]; [discriminate|eauto].
Qed.
Lemma inv_init : inv init.
Proof. left. repeat split. intros r []. Qed.

(* ---- answers that come too early, and in time ---- *)
Definition waiting (p : pc) : Prop := p = PEval \/ exists ch, p = PRecv ch.
Definition newest (s : cstate) : option (option resp) := nth_error (bufs s) (pred (length (bufs s))).
Definition lost (s : cstate) (cs : list client) (q : bytes) (p : pc) : Prop :=
  good s cs q p /\ away s = 0%nat /\ (p = PMake \/ waiting p /\ newest s = Some None).
Definition due (s : cstate) (cs : list client) (q : bytes) (p : pc) : Prop :=
  good s cs q p /\ waiting p /\ newest s = Some (Some (helper q)).

Lemma good_unique s cs q p p' : good s cs q p -> good s cs q p' -> p = p'.
Proof.
  intros A B. pose proof (g_clients _ _ _ _ A) as X. rewrite (g_clients _ _ _ _ B) in X.
  apply app_inv_head in X. congruence.
Qed.
Lemma not_finished s cs q p : good s cs q p -> (p = PMake \/ waiting p) -> ~ finished s.
Proof.
  intros G W F. destruct (F (mkCl q p)) as [r E].
  - rewrite (g_clients _ _ _ _ G). apply in_or_app. right. now left.
  - cbn [c_pc] in E. subst p. destruct W as [W|[W|[ch W]]]; discriminate.
Qed.

(* how the newest channel changes *)
Lemma newest_snoc s b : nth_error (bufs s ++ [b]) (pred (length (bufs s ++ [b]))) = Some b.
Proof. rewrite app_length. cbn [length]. rewrite Nat.add_1_r. cbn [pred]. rewrite nth_error_app2 by lia. now rewrite Nat.sub_diag. Qed.

Lemma away_nil s : away s = 0%nat -> sendq s = [] /\ inflight s = [] /\ forall r, In r (incoming s) -> ~ 1 < fst r.
Proof.
  intros H. unfold away in H. repeat split; try (apply length_zero_iff_nil; lia).
  intros r I L. assert (J : In r (filter isans (incoming s))) by (apply filter_In; split; [exact I|now apply Z.ltb_lt]).
  destruct (filter isans (incoming s)); [exact J|cbn [length] in H; lia].
Qed.

(* a step while nothing is on its way, other than of the caller, leaves the channels alone *)
Lemma quiet_step e s s' cs q p : good s cs q p -> away s = 0%nat -> step helper e s = Some s' ->
  (forall r, e <> EStart r) -> (forall i, e <> EClient i) -> bufs s' = bufs s /\ away s' = 0%nat /\ clients s' = clients s.
Proof.
  intros G A ST N1 N2. destruct (away_nil s A) as (Z1 & Z2 & Z3). pose proof (g_reader _ _ _ _ G) as R.
  unfold away in A. destruct e as [r|i| |k|m| | |]; cbn [step] in ST.
  - now destruct (N1 r).
  - now destruct (N2 i).
  - rewrite Z1 in ST. discriminate.
  - rewrite Z2 in ST. destruct k; discriminate.
  - injection ST as <-. unfold away. cbnc. rewrite filter_app_len. cbn [filter]. change (isans (1, m)) with false. cbn [length]. repeat split; lia.
  - rewrite R in ST. destruct (incoming s) as [|r t] eqn:E; [discriminate|].
    assert (X : (1 <? fst r) = false) by (apply Z.ltb_ge; apply Z.nlt_ge; apply Z3; now left).
    assert (L : (length (filter isans t) <= length (filter isans (r :: t)))%nat) by (cbn [filter]; destruct (isans r); cbn [length]; lia).
    rewrite X in ST. destruct (rc s); injection ST as <-; unfold away; cbnc; repeat split; lia.
  - rewrite R in ST. discriminate.
  - rewrite R in ST. injection ST as <-. repeat split.
Qed.

Lemma lost_step e s s' cs q p : lost s cs q p -> step helper e s = Some s' -> (forall r, e = EStart r -> finished s) ->
  exists p', lost s' cs q p'.
Proof.
  intros (G & A & W) ST Q. assert (NS : forall r, e <> EStart r).
  { intros r ->. apply (not_finished s cs q p G); [|now apply (Q r)]. destruct W as [W|[W _]]; auto. }
  destruct (good_step _ _ _ _ _ _ G ST NS) as [p' G']. exists p'. split; [exact G'|].
  assert (E : (exists i, e = EClient i) \/ forall i, e <> EClient i).
  { destruct e; try (right; discriminate). left. eauto. }
  destruct E as [[i ->]|NE].
  - clear NS Q. cbn [step] in ST. destruct (nth_error (clients s) i) as [c|] eqn:E; [|discriminate].
    destruct (client_last _ _ _ _ _ _ G E) as [[-> ->]|[r R]]; [|rewrite R in ST; discriminate].
    cbn [c_pc c_req] in ST. destruct W as [->|[[->|[ch ->]] B]].
    + injection ST as <-. split; [exact A|]. right. split; [|apply newest_snoc]. left.
      pose proof (g_clients _ _ _ _ G') as X. cbnc. unfold set_pc in X. rewrite (g_clients _ _ _ _ G) in X.
      rewrite set_nth_last in X by reflexivity. apply app_inv_head in X. cbn [c_req] in X. congruence.
    + destruct (rc s) as [ch|] eqn:R; [|discriminate]. injection ST as <-. split; [exact A|]. right. split; [|exact B]. right. exists ch.
      pose proof (g_clients _ _ _ _ G') as X. cbnc. unfold set_pc in X. rewrite (g_clients _ _ _ _ G) in X.
      rewrite set_nth_last in X by reflexivity. apply app_inv_head in X. cbn [c_req] in X. congruence.
    + exfalso. pose proof (g_recv _ _ _ _ G ch eq_refl) as R1. rewrite (g_new _ _ _ _ G) in R1 by (right; eauto). injection R1 as <-.
      unfold newest in B. rewrite B in ST. discriminate.
  - destruct (quiet_step _ _ _ _ _ _ G A ST NS NE) as (Eb & Ea & Ec). split; [exact Ea|].
    assert (p' = p).
    { pose proof (g_clients _ _ _ _ G') as X. rewrite Ec, (g_clients _ _ _ _ G) in X. apply app_inv_head in X. congruence. }
    subst p'. unfold newest in *. rewrite Eb. exact W.
Qed.

Lemma lost_run es : forall s s' cs q p, lost s cs q p -> sequential helper es s -> run helper es s = Some s' -> exists p', lost s' cs q p'.
Proof.
  induction es as [|e es IH]; intros s s' cs q p L Q R; cbn [run sequential] in *; [injection R as <-; eauto|].
  destruct Q as [Q1 Q2]. destruct (step helper e s) as [s1|] eqn:ST; [|discriminate].
  destruct (lost_step _ _ _ _ _ _ L ST) as [p' L']; [intros r ->; exact Q1|]. eauto.
Qed.

Lemma lost_never s cs q p r : lost s cs q p -> nth_error (clients s) (length cs) <> Some (mkCl q (PDone r)).
Proof.
  intros (G & _ & W). rewrite (g_clients _ _ _ _ G). rewrite nth_error_app2 by lia. rewrite Nat.sub_diag. cbn [nth_error].
  intros [= ->]. destruct W as [W|[[W|[? W]] _]]; discriminate.
Qed.

(* a finished request stays finished *)
Lemma done_step e s s' i q r : nth_error (clients s) i = Some (mkCl q (PDone r)) -> step helper e s = Some s' ->
  nth_error (clients s') i = Some (mkCl q (PDone r)).
Proof.
  intros H ST. destruct e as [m|j| |k|m| | |]; cbn [step] in ST.
  - injection ST as <-. cbnc. rewrite nth_error_app1; [exact H|]. apply nth_error_Some. congruence.
  - destruct (nth_error (clients s) j) as [c|] eqn:E; [|discriminate]. assert (N : c_pc c = PDone r \/ j <> i).
    { destruct (Nat.eq_dec j i) as [->|N]; [left|now right]. rewrite H in E. injection E as <-. reflexivity. }
    destruct N as [N|N]; [rewrite N in ST; discriminate|].
    assert (X : forall p, nth_error (set_pc j c p s) i = Some (mkCl q (PDone r))).
    { intros p. unfold set_pc. rewrite nth_error_set_other by exact N. exact H. }
    destruct (c_pc c) as [| | |ch|x].
    + destruct (Nat.ltb _ 256); [|discriminate]. injection ST as <-. apply X.
    + injection ST as <-. apply X.
    + destruct (rc s); [|discriminate]. injection ST as <-. apply X.
    + destruct (nth_error (bufs s) ch) as [[y|]|]; try discriminate. injection ST as <-. apply X.
    + discriminate.
  - destruct (sendq s); [discriminate|]. injection ST as <-. exact H.
  - destruct (nth_error (inflight s) k); [|discriminate]. injection ST as <-. exact H.
  - injection ST as <-. exact H.
  - destruct (reader s); [discriminate|]. destruct (incoming s) as [|y t]; [discriminate|].
    destruct (rc s) as [ch|]; [|injection ST as <-; exact H]. destruct (1 <? fst y); [|injection ST as <-; exact H].
    destruct (nth_error (bufs s) ch) as [[z|]|]; injection ST as <-; exact H.
  - destruct (reader s) as [[ch y]|]; [|discriminate]. destruct (nth_error (bufs s) ch) as [[z|]|]; try discriminate. injection ST as <-. exact H.
  - destruct (reader s); [discriminate|]. injection ST as <-. exact H.
Qed.

Lemma due_step e s s' cs q p : due s cs q p -> step helper e s = Some s' -> (forall r, e = EStart r -> finished s) ->
  (exists p', due s' cs q p') \/ nth_error (clients s') (length cs) = Some (mkCl q (PDone (helper q))).
Proof.
  intros (G & W & B) ST Q. assert (NS : forall r, e <> EStart r).
  { intros r ->. apply (not_finished s cs q p G); [auto|now apply (Q r)]. }
  assert (A : away s = 0%nat). { pose proof (g_one _ _ _ _ G) as O. unfold newest in B. apply kept_in in B. unfold kept in O. lia. }
  destruct (good_step _ _ _ _ _ _ G ST NS) as [p' G'].
  assert (E : (exists i, e = EClient i) \/ forall i, e <> EClient i).
  { destruct e; try (right; discriminate). left. eauto. }
  destruct E as [[i ->]|NE].
  - clear NS Q. cbn [step] in ST. destruct (nth_error (clients s) i) as [c|] eqn:E; [|discriminate].
    destruct (client_last _ _ _ _ _ _ G E) as [[-> ->]|[r R]]; [|rewrite R in ST; discriminate].
    cbn [c_pc c_req] in ST. destruct W as [->|[ch ->]].
    + left. exists p'. destruct (rc s) as [ch|] eqn:R; [|discriminate]. injection ST as <-. split; [exact G'|]. split; [|exact B]. right. exists ch.
      pose proof (g_clients _ _ _ _ G') as X. cbnc. unfold set_pc in X. rewrite (g_clients _ _ _ _ G) in X.
      rewrite set_nth_last in X by reflexivity. apply app_inv_head in X. cbn [c_req] in X. congruence.
    + right. pose proof (g_recv _ _ _ _ G ch eq_refl) as R1. rewrite (g_new _ _ _ _ G) in R1 by (right; eauto). injection R1 as <-.
      unfold newest in B. rewrite B in ST. injection ST as <-. cbnc. unfold set_pc. rewrite (g_clients _ _ _ _ G). cbn [c_req].
      apply nth_error_set_same. rewrite app_length. cbn [length]. lia.
  - left. exists p'. destruct (quiet_step _ _ _ _ _ _ G A ST NS NE) as (Eb & Ea & Ec). split; [exact G'|].
    assert (p' = p).
    { pose proof (g_clients _ _ _ _ G') as X. rewrite Ec, (g_clients _ _ _ _ G) in X. apply app_inv_head in X. congruence. }
    subst p'. unfold newest in *. rewrite Eb. auto.
Qed.

Lemma due_run es : forall s s' cs q,
  (exists p, due s cs q p) \/ nth_error (clients s) (length cs) = Some (mkCl q (PDone (helper q))) ->
  sequential helper es s -> run helper es s = Some s' ->
  (exists p, due s' cs q p) \/ nth_error (clients s') (length cs) = Some (mkCl q (PDone (helper q))).
Proof.
  induction es as [|e es IH]; intros s s' cs q D Q R; cbn [run sequential] in *; [injection R as <-; eauto|].
  destruct Q as [Q1 Q2]. destruct (step helper e s) as [s1|] eqn:ST; [|discriminate]. apply (IH s1); auto.
  destruct D as [[p D]|D].
  - apply (due_step _ _ _ _ _ _ D ST). intros r ->. exact Q1.
  - right. now apply (done_step _ _ _ _ _ _ D ST).
Qed.

Lemma due_returns s cs q p : due s cs q p -> exists k s', (k <= 2)%nat /\ run helper (repeat (EClient (length cs)) k) s = Some s'
  /\ nth_error (clients s') (length cs) = Some (mkCl q (PDone (helper q))).
Proof.
  intros (G & W & B). assert (N : nth_error (clients s) (length cs) = Some (mkCl q p)).
  { rewrite (g_clients _ _ _ _ G), nth_error_app2 by lia. now rewrite Nat.sub_diag. }
  assert (L : (length cs < length (clients s))%nat) by (apply nth_error_Some; congruence).
  assert (F : forall s ch, nth_error (clients s) (length cs) = Some (mkCl q (PRecv ch)) -> nth_error (bufs s) ch = Some (Some (helper q)) ->
    exists s', step helper (EClient (length cs)) s = Some s' /\ nth_error (clients s') (length cs) = Some (mkCl q (PDone (helper q)))).
  { clear. intros s ch N B. cbn [step]. rewrite N. cbn [c_pc]. rewrite B. eexists. split; [reflexivity|]. cbnc. unfold set_pc. cbn [c_req].
    apply nth_error_set_same. apply nth_error_Some. congruence. }
  unfold newest in B. destruct W as [->|[ch ->]].
  - exists 2%nat. pose proof (g_new _ _ _ _ G (or_introl eq_refl)) as R. cbn [repeat run].
    destruct (step helper (EClient (length cs)) s) as [s1|] eqn:ST.
    + cbn [step] in ST. rewrite N in ST. cbn [c_pc] in ST. rewrite R in ST. injection ST as <-.
      edestruct F as (s' & S1 & S2); [| |rewrite S1; exists s'; split; [lia|split; [reflexivity|exact S2]]].
      * cbnc. unfold set_pc. cbn [c_req]. now apply nth_error_set_same.
      * exact B.
    + exfalso. cbn [step] in ST. rewrite N in ST. cbn [c_pc] in ST. rewrite R in ST. discriminate.
  - exists 1%nat. cbn [repeat run]. pose proof (g_recv _ _ _ _ G ch eq_refl) as R.
    pose proof (g_new _ _ _ _ G (or_intror (ex_intro _ ch eq_refl))) as R2. rewrite R in R2. injection R2 as ->.
    destruct (F _ _ N B) as (s' & S1 & S2). rewrite S1. exists s'. auto.
Qed.

Lemma reach_client s i c : inv s -> nth_error (clients s) i = Some c ->
  (exists cs q p, good s cs q p /\ i = length cs /\ c = mkCl q p) \/ c_pc c = PDone (helper (c_req c)).
Proof.
  intros [I|(cs & q & p & G)] N.
  - destruct I as (H & _). rewrite H in N. destruct i; discriminate.
  - destruct (Nat.lt_ge_cases i (length cs)) as [L|L].
    + right. rewrite (g_clients _ _ _ _ G), nth_error_app1 in N by exact L. apply nth_error_In in N. now apply (g_old _ _ _ _ G).
    + left. exists cs, q, p. destruct (client_last _ _ _ _ _ _ G N) as [[-> ->]|[r R]]; [auto|].
      rewrite (g_clients _ _ _ _ G), nth_error_app2 in N by exact L.
      destruct (i - length cs)%nat eqn:D; cbn [nth_error] in N; [|destruct n; discriminate]. injection N as <-.
      split; [exact G|]. split; [lia|reflexivity].
Qed.
End S.

(* ---- C42, one request at a time; the helper gives every request an answer of a type above 1 ---- *)

(* Whatever the order of events, a request that returns returns the answer to it. *)
Theorem C42_right_answer : forall helper, (forall m, 1 < fst (helper m)) -> forall es s,
  sequential helper es init -> run helper es init = Some s ->
  forall c r, In c (clients s) -> c_pc c = PDone r -> r = helper (c_req c).
Proof.
  intros helper A es s Q R c r I D. pose proof (inv_run helper A _ _ _ (inv_init helper) Q R) as V.
  apply In_nth_error in I. destruct I as [i N].
  destruct (reach_client helper _ _ _ V N) as [(cs & q & p & G & _ & ->)|E]; [|congruence].
  cbn [c_pc c_req] in *. now apply (g_done _ _ _ _ _ G).
Qed.
Print Assumptions C42_right_answer.

(* An answer read after the caller has made its channel is returned: from then on, whatever else happens, the
   caller returns it after at most two more of its own steps. *)
Theorem C42_late_answer_returns : forall helper, (forall m, 1 < fst (helper m)) -> forall es s,
  sequential helper es init -> run helper es init = Some s ->
  forall i c r rest s1, nth_error (clients s) i = Some c -> c_pc c = PEval \/ (exists ch, c_pc c = PRecv ch) ->
  incoming s = r :: rest -> 1 < fst r -> step helper ERead s = Some s1 ->
  forall es2 s2, sequential helper es2 s1 -> run helper es2 s1 = Some s2 ->
  exists k s3, (k <= 2)%nat /\ run helper (repeat (EClient i) k) s2 = Some s3
    /\ nth_error (clients s3) i = Some (mkCl (c_req c) (PDone (helper (c_req c)))).
Proof.
  intros helper A es s Q R i c r rest s1 N W In1 T ST es2 s2 Q2 R2.
  pose proof (inv_run helper A _ _ _ (inv_init helper) Q R) as V.
  destruct (reach_client helper _ _ _ V N) as [(cs & q & p & G & -> & ->)|E].
  2:{ rewrite E in W. destruct W as [W|[? W]]; discriminate. }
  cbn [c_pc c_req] in *. assert (D : due helper s1 cs q p).
  { destruct (good_step helper A _ _ _ _ _ _ G ST) as [p' G']; [discriminate|].
    cbn [step] in ST. rewrite (g_reader _ _ _ _ _ G), In1 in ST. pose proof (g_new _ _ _ _ _ G W) as RC.
    pose proof (g_rc _ _ _ _ _ G _ RC) as LT. rewrite RC in ST. replace (1 <? fst r) with true in ST by (symmetry; now apply Z.ltb_lt).
    assert (r = helper q). { apply (g_in _ _ _ _ _ G); [rewrite In1; now left|exact T]. } subst r.
    pose proof (g_one _ _ _ _ _ G) as O. unfold away in O. rewrite In1 in O. cbn [filter] in O.
    replace (isans (helper q)) with true in O by (symmetry; now apply Z.ltb_lt). cbn [length] in O.
    destruct (nth_error (bufs s) (pred (length (bufs s)))) as [[x|]|] eqn:B.
    - exfalso. apply kept_in in B. unfold kept in O. lia.
    - injection ST as <-. assert (p' = p).
      { pose proof (g_clients _ _ _ _ _ G') as X. cbn [clients] in X. rewrite (g_clients _ _ _ _ _ G) in X. apply app_inv_head in X. congruence. }
      subst p'. split; [exact G'|]. split; [exact W|]. unfold newest. cbn [bufs]. rewrite set_nth_length. now apply nth_error_set_same.
    - exfalso. apply nth_error_None in B. lia. }
  destruct (due_run helper A es2 s1 s2 cs q) as [[p2 D2]|D2]; auto; [now left; exists p|..].
  - now apply (due_returns helper _ _ _ p2).
  - exists 0%nat, s2. split; [lia|]. now split.
Qed.
Print Assumptions C42_late_answer_returns.

(* An answer read before that is lost: the request never returns. *)
Theorem C42_early_answer_is_lost : forall helper, (forall m, 1 < fst (helper m)) -> forall es s,
  sequential helper es init -> run helper es init = Some s ->
  forall i c r rest s1, nth_error (clients s) i = Some c -> c_pc c = PMake ->
  incoming s = r :: rest -> 1 < fst r -> step helper ERead s = Some s1 ->
  forall es2 s2, sequential helper es2 s1 -> run helper es2 s1 = Some s2 ->
  forall x, nth_error (clients s2) i <> Some (mkCl (c_req c) (PDone x)).
Proof.
  intros helper A es s Q R i c r rest s1 N W In1 T ST es2 s2 Q2 R2 x.
  pose proof (inv_run helper A _ _ _ (inv_init helper) Q R) as V.
  destruct (reach_client helper _ _ _ V N) as [(cs & q & p & G & -> & ->)|E]; [|congruence].
  cbn [c_pc c_req] in *. subst p. assert (D : exists p, lost helper s1 cs q p).
  { destruct (good_step helper A _ _ _ _ _ _ G ST) as [p' G']; [discriminate|]. exists p'.
    assert (X : clients s1 = clients s /\ (S (away s1) = away s)%nat).
    { unfold away. rewrite In1. cbn [filter]. replace (isans r) with true by (symmetry; now apply Z.ltb_lt). cbn [length].
      cbn [step] in ST. rewrite (g_reader _ _ _ _ _ G), In1 in ST. replace (1 <? fst r) with true in ST by (symmetry; now apply Z.ltb_lt).
      destruct (rc s) as [ch|]; [destruct (nth_error (bufs s) ch) as [[y|]|]|]; injection ST as <-; cbn [clients sendq inflight incoming]; split; auto; lia. }
    destruct X as [X1 X2]. pose proof (g_one _ _ _ _ _ G) as O. split; [exact G'|]. split; [lia|]. left.
    pose proof (g_clients _ _ _ _ _ G') as X. rewrite X1, (g_clients _ _ _ _ _ G) in X. apply app_inv_head in X. congruence. }
  destruct D as [p D]. destruct (lost_run helper A _ _ _ _ _ _ D Q2 R2) as [p2 D2]. now apply (lost_never helper _ _ _ p2).
Qed.
Print Assumptions C42_early_answer_is_lost.

(* A request or answer that is under way when the connection breaks is lost too: nobody repeats it and the
   caller waits for ever. *)
Theorem C42_reconnect_loses : forall helper, (forall m, 1 < fst (helper m)) -> forall es s,
  sequential helper es init -> run helper es init = Some s ->
  forall i c s1, nth_error (clients s) i = Some c -> c_pc c = PMake \/ c_pc c = PEval \/ (exists ch, c_pc c = PRecv ch) ->
  sendq s <> [] \/ inflight s <> [] \/ (exists r, In r (incoming s) /\ 1 < fst r) -> step helper EReconnect s = Some s1 ->
  forall es2 s2, sequential helper es2 s1 -> run helper es2 s1 = Some s2 ->
  forall x, nth_error (clients s2) i <> Some (mkCl (c_req c) (PDone x)).
Proof.
  intros helper A es s Q R i c s1 N W U ST es2 s2 Q2 R2 x.
  pose proof (inv_run helper A _ _ _ (inv_init helper) Q R) as V.
  destruct (reach_client helper _ _ _ V N) as [(cs & q & p & G & -> & ->)|E].
  2:{ rewrite E in W. destruct W as [W|[W|[? W]]]; discriminate. }
  cbn [c_pc c_req] in *. assert (D : lost helper s1 cs q p).
  { destruct (good_step helper A _ _ _ _ _ _ G ST) as [p' G']; [discriminate|].
    assert (AW : (1 <= away s)%nat).
    { unfold away. destruct U as [U|[U|[r [I L]]]].
      - destruct (sendq s); [congruence|cbn [length]; lia].
      - destruct (inflight s); [congruence|cbn [length]; lia].
      - assert (J : In r (filter isans (incoming s))) by (apply filter_In; split; [exact I|now apply Z.ltb_lt]).
        destruct (filter isans (incoming s)); [destruct J|cbn [length]; lia]. }
    pose proof (g_one _ _ _ _ _ G) as O. cbn [step] in ST. rewrite (g_reader _ _ _ _ _ G) in ST. injection ST as <-.
    assert (p' = p).
    { pose proof (g_clients _ _ _ _ _ G') as X. cbn [clients] in X. rewrite (g_clients _ _ _ _ _ G) in X. apply app_inv_head in X. congruence. }
    subst p'. split; [exact G'|]. split; [reflexivity|]. destruct W as [W|W]; [now left|right]. split; [exact W|].
    unfold newest. cbn [bufs]. pose proof (g_rc _ _ _ _ _ G _ (g_new _ _ _ _ _ G W)) as LT.
    destruct (nth_error (bufs s) (pred (length (bufs s)))) as [[y|]|] eqn:B; [|reflexivity|].
    - exfalso. apply kept_in in B. unfold kept in O. lia.
    - exfalso. apply nth_error_None in B. lia. }
  destruct (lost_run helper A _ _ _ _ _ _ D Q2 R2) as [p2 D2]. now apply (lost_never helper _ _ _ p2).
Qed.
Print Assumptions C42_reconnect_loses.

Fixpoint seqb (helper : bytes -> resp) (es : list event) (s : cstate) : bool :=
  match es with
  | [] => true
  | e :: es => match e with EStart _ => forallb (fun c => match c_pc c with PDone _ => true | _ => false end) (clients s) | _ => true end
               && match step helper e s with Some s' => seqb helper es s' | None => true end
  end.
Lemma seqb_ok helper es : forall s, seqb helper es s = true -> sequential helper es s.
Proof.
  induction es as [|e es IH]; intros s H; cbn [seqb sequential] in *; [exact I|]. apply andb_true_iff in H. destruct H as [H1 H2].
  split; [|destruct (step helper e s); auto]. destruct e; auto. intros c J. rewrite forallb_forall in H1. specialize (H1 c J).
  destruct (c_pc c); try discriminate. eauto.
Qed.

Definition ex_helper (m : bytes) : resp := (3, 1 :: m).
Lemma ex_answers m : 1 < fst (ex_helper m). Proof. reflexivity. Qed.

(* A single request, answered, and the connection intact: it never returns. *)
Theorem C42_answered_request_returns_refuted : exists helper, (forall m, 1 < fst (helper m)) /\ exists es s,
  sequential helper es init /\ run helper es init = Some s /\ ~ In EReconnect es
  /\ In (EAnswer 0) es /\ In (EStart [7]) es
  /\ forall es2 s2, sequential helper es2 s -> run helper es2 s = Some s2 ->
     forall x, nth_error (clients s2) 0 <> Some (mkCl [7] (PDone x)).
Proof.
  exists ex_helper. split; [exact ex_answers|].
  exists [EStart [7]; EClient 0; EWrite; EAnswer 0; ERead]. eexists. split; [apply seqb_ok; vm_compute; reflexivity|].
  split; [vm_compute; reflexivity|]. split; [intros [H|[H|[H|[H|[H|[]]]]]]; discriminate|]. split; [cbn; auto|]. split; [cbn; auto|].
  intros es2 s2 Q2 R2 x. change [7] with (c_req (mkCl [7] PMake)).
  assert (Q : sequential ex_helper [EStart [7]; EClient 0; EWrite; EAnswer 0] init) by (apply seqb_ok; vm_compute; reflexivity).
  exact (C42_early_answer_is_lost ex_helper ex_answers [EStart [7]; EClient 0; EWrite; EAnswer 0] _ Q eq_refl 0 (mkCl [7] PMake)
    (3, [1; 7]) [] _ eq_refl eq_refl eq_refl eq_refl eq_refl es2 s2 Q2 R2 x).
Qed.
Print Assumptions C42_answered_request_returns_refuted.

(* Two requests one after the other, with an acknowledgement in between, both answered in time. *)
Example C42_example : exists s,
  let es := [EStart [7]; EClient 0; EClient 0; EWrite; EAck [9]; EClient 0; EAnswer 0; ERead; ERead; EClient 0;
             EStart [8]; EClient 1; EWrite; EClient 1; EAnswer 0; ERead; EClient 1; EClient 1] in
  sequential ex_helper es init /\ run ex_helper es init = Some s
  /\ clients s = [mkCl [7] (PDone (3, [1; 7])); mkCl [8] (PDone (3, [1; 8]))].
Proof.
  eexists. cbv zeta. split; [apply seqb_ok; vm_compute; reflexivity|split; vm_compute; reflexivity].
Qed.

(* ---- C86: two requests at the same time ---- *)
Theorem C86_requests_not_mixed_up_refuted : exists helper, (forall m, 1 < fst (helper m)) /\ exists es s,
  run helper es init = Some s /\ nth_error (clients s) 1 = Some (mkCl [8] (PDone (helper [7]))) /\ helper [7] <> helper [8].
Proof.
  exists ex_helper. split; [exact ex_answers|].
  exists [EStart [7]; EStart [8]; EClient 0; EClient 0; EClient 0; EClient 1; EClient 1; EClient 1; EWrite; EAnswer 0; ERead; EClient 1].
  eexists. split; [vm_compute; reflexivity|]. split; [reflexivity|]. discriminate.
Qed.
Print Assumptions C86_requests_not_mixed_up_refuted.
