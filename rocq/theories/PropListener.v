(* C165, C166: the listener's connections *)
From Coq Require Import ZArith List Lia Bool.
From Verif Require Import Listener.
Import ListNotations.
Open Scope Z_scope.

(* the requests handled that came over connection k, first to last *)
Definition handled_from (k : nat) (s : lstate) : list Z :=
  map snd (filter (fun p => Nat.eqb (fst p) k) (l_handled s)).
Definition prefix (a b : list Z) : Prop := exists r, b = a ++ r.

(* StartListening is called only when the earlier calls have returned *)
Fixpoint serial (s : lstate) (h : list levent) : Prop :=
  match h with
  | [] => True
  | e :: t => (e = Start -> forall l, (l < l_n s)%nat -> l_loop s l = LDone) /\ serial (lstep s e) t
  end.

Lemma upd_same : forall A (f : nat -> A) i a, upd f i a i = a.
Proof. intros. unfold upd. now rewrite Nat.eqb_refl. Qed.
Lemma upd_other : forall A (f : nat -> A) i a j, j <> i -> upd f i a j = f j.
Proof. intros. unfold upd. destruct (Nat.eqb j i) eqn:E; auto. apply Nat.eqb_eq in E. contradiction. Qed.

(* --- the invariant of serial use --- *)
Definition doing (t : loop) : list Z := match t with LHandle _ _ id => [id] | _ => [] end.
Definition conn_inv (h : list Z) (t : loop) (c : conn) : Prop :=
  c_arrived c = h ++ doing t ++ c_in c /\
  (if c_open c then c_acks c ++ c_send c = h else prefix (c_acks c) h).
Definition own_loop (i : nat) (t : loop) : Prop :=
  match t with
  | LRead d => d = i | LBlocked d k => d = i /\ k = i | LHandle d k _ => d = i /\ k = i | _ => True
  end.
Record sinv (s : lstate) : Prop := {
  v_dead : l_dead s = false;
  v_new : forall i, (l_n s <= i)%nat -> l_loop s i = LNone /\ l_conn s i = new_conn;
  v_old : forall i, (S i < l_n s)%nat -> l_loop s i = LDone;
  v_own : forall i, own_loop i (l_loop s i);
  v_dialed : forall i, match l_loop s i with
      | LRead _ | LBlocked _ _ | LHandle _ _ _ => c_dialed (l_conn s i) = true
      | LDial => l_conn s i = new_conn
      | _ => True end;
  v_conn : forall i, conn_inv (handled_from i s) (l_loop s i) (l_conn s i) }.

Lemma handled_app : forall s k i id cs ls n d,
  handled_from i (mkL cs ls n (l_handled s ++ [(k, id)]) d) = handled_from i s ++ (if Nat.eqb k i then [id] else []).
Proof.
  intros. unfold handled_from. cbn [l_handled]. rewrite filter_app, map_app. cbn [filter fst]. now destruct (Nat.eqb k i).
Qed.
Lemma handled_same : forall s i cs ls n d, handled_from i (mkL cs ls n (l_handled s) d) = handled_from i s.
Proof. reflexivity. Qed.

Lemma close_inv : forall h t c, conn_inv h t c -> conn_inv h t (close c).
Proof.
  intros h t c [A B]. split; [exact A|]. cbn [close c_open c_acks]. destruct (c_open c); [|exact B].
  exists (c_send c). now rewrite B.
Qed.

(* changing the state of one connection in a way that keeps its invariant *)
Lemma sinv_conn : forall s k c', sinv s -> (k < l_n s)%nat ->
  conn_inv (handled_from k s) (l_loop s k) c' -> (c_dialed (l_conn s k) = true -> c_dialed c' = true) ->
  (l_loop s k = LDial -> c' = new_conn) ->
  sinv (mkL (upd (l_conn s) k c') (l_loop s) (l_n s) (l_handled s) false).
Proof.
  intros s k c' [D N O W DI CI] L HC HD HL. constructor; cbn [l_dead l_n l_loop l_conn]; auto.
  - intros i Hi. destruct (N i Hi). rewrite upd_other by lia. auto.
  - intros i. destruct (Nat.eq_dec i k) as [->|X]; [rewrite upd_same|rewrite upd_other by auto; apply DI].
    specialize (DI k). destruct (l_loop s k); auto.
  - intros i. rewrite handled_same. destruct (Nat.eq_dec i k) as [->|X]; [rewrite upd_same; auto|rewrite upd_other by auto; apply CI].
Qed.

Lemma started : forall s l, sinv s -> l_loop s l <> LNone -> (l < l_n s)%nat.
Proof. intros s l H N. destruct (Nat.lt_ge_cases l (l_n s)) as [L|L]; auto. destruct (v_new _ H l L). contradiction. Qed.
Lemma running : forall s l, sinv s -> l_loop s l <> LNone -> l_loop s l <> LDone -> l = cur s.
Proof.
  intros s l H N D. pose proof (started s l H N) as L. unfold cur.
  destruct (Nat.eq_dec (S l) (l_n s)) as [E|E]; [rewrite <- E; reflexivity|].
  destruct D. apply (v_old _ H). lia.
Qed.

Lemma sinv_step : forall s e, sinv s -> (e = Start -> forall l, (l < l_n s)%nat -> l_loop s l = LDone) ->
  sinv (lstep s e).
Proof.
  intros s e H ST. unfold lstep. rewrite (v_dead _ H).
  destruct e as [|l ok| |k id|k|l|k].
  - (* Start *)
    specialize (ST eq_refl). destruct H as [D N O W DI CI].
    assert (NF : forall p, In p (l_handled s) -> True) by auto. clear NF.
    destruct (N (l_n s) (le_n _)) as [NL NC].
    constructor; cbn [l_dead l_n l_loop l_conn]; auto.
    + intros i Hi. destruct (N i) as [N1 N2]; [lia|]. rewrite !upd_other by lia. auto.
    + intros i Hi. rewrite upd_other by lia. apply ST. lia.
    + intros i. destruct (Nat.eq_dec i (l_n s)) as [->|X]; [rewrite upd_same; exact Logic.I|rewrite upd_other by auto; auto].
    + intros i. destruct (Nat.eq_dec i (l_n s)) as [->|X]; [rewrite !upd_same; reflexivity|rewrite !upd_other by auto; apply DI].
    + intros i. rewrite handled_same. destruct (Nat.eq_dec i (l_n s)) as [->|X]; [rewrite !upd_same|rewrite !upd_other by auto; apply CI].
      specialize (CI (l_n s)). rewrite NL, NC in CI. exact CI.
  - (* Dial *)
    destruct (l_loop s l) eqn:E; try exact H.
    assert (EL : l = cur s) by (apply running; auto; rewrite E; discriminate).
    assert (LT : (l < l_n s)%nat) by (apply started; auto; rewrite E; discriminate).
    pose proof (v_dialed _ H l) as DL. rewrite E in DL.
    destruct ok.
    + rewrite <- EL. rewrite upd_same. cbn [c_dialed c_open c_arrived c_in c_send c_acks c_writer]. rewrite DL.
      cbn [new_conn c_open c_arrived c_in c_send c_acks].
      destruct H as [D N O W DI CI]. constructor; cbn [l_dead l_n l_loop l_conn]; auto.
      * intros i Hi. destruct (N i Hi). rewrite !upd_other by lia. auto.
      * intros i Hi. rewrite upd_other; [auto|]. intros ->. rewrite (O l Hi) in E. discriminate E.
      * intros i. destruct (Nat.eq_dec i l) as [->|X]; [rewrite upd_same; reflexivity|rewrite upd_other by auto; auto].
      * intros i. destruct (Nat.eq_dec i l) as [->|X]; [rewrite !upd_same; reflexivity|rewrite !upd_other by auto; apply DI].
      * intros i. rewrite handled_same. destruct (Nat.eq_dec i l) as [->|X]; [rewrite !upd_same|rewrite !upd_other by auto; apply CI].
        specialize (CI l). rewrite E, DL in CI. destruct CI as [A (r & B)]. split; [exact A|].
        cbn [c_open c_acks c_send]. cbn [new_conn c_arrived doing c_in] in A. rewrite !app_nil_r in A. exact A.
    + destruct H as [D N O W DI CI]. constructor; cbn [l_dead l_n l_loop l_conn]; auto.
      * intros i Hi. destruct (N i Hi). rewrite upd_other by lia. auto.
      * intros i Hi. destruct (Nat.eq_dec i l) as [->|X]; [now rewrite upd_same|rewrite upd_other by auto; auto].
      * intros i. destruct (Nat.eq_dec i l) as [->|X]; [rewrite upd_same; exact Logic.I|rewrite upd_other by auto; auto].
      * intros i. destruct (Nat.eq_dec i l) as [->|X]; [rewrite upd_same; exact Logic.I|rewrite upd_other by auto; apply DI].
      * intros i. rewrite handled_same. destruct (Nat.eq_dec i l) as [->|X]; [rewrite upd_same|rewrite upd_other by auto; apply CI].
        specialize (CI l). rewrite E in CI. exact CI.
  - (* Stop *)
    destruct (Nat.eqb (l_n s) 0) eqn:Z0; [exact H|]. apply Nat.eqb_neq in Z0.
    destruct (c_dialed (l_conn s (cur s))) eqn:DL; [|exact H].
    apply sinv_conn; auto.
    + unfold cur. lia.
    + apply close_inv, (v_conn _ H).
    + intros X. pose proof (v_dialed _ H (cur s)) as Y. rewrite X in Y. rewrite Y in DL. discriminate DL.
  - (* Arrive *)
    destruct (c_open (l_conn s k)) eqn:OP; [|exact H].
    assert (LT : (k < l_n s)%nat).
    { destruct (Nat.lt_ge_cases k (l_n s)) as [L|L]; auto. destruct (v_new _ H k L) as [_ X]. rewrite X in OP. discriminate OP. }
    apply sinv_conn; auto.
    + destruct (v_conn _ H k) as [A B]. rewrite OP in B. split; cbn [c_arrived c_in c_open c_acks c_send]; [|exact B].
      rewrite A, <- !app_assoc. reflexivity.
    + intros X. pose proof (v_dialed _ H k) as Y. rewrite X in Y. rewrite Y in OP. discriminate OP.
  - (* Lost *)
    destruct (Nat.lt_ge_cases k (l_n s)) as [L|L].
    + apply sinv_conn; auto.
      * apply close_inv, (v_conn _ H).
      * intros X. pose proof (v_dialed _ H k) as Y. rewrite X in Y. now rewrite Y.
    + destruct (v_new _ H k L) as [X Y]. destruct H as [D N O W DI CI].
      assert (U : forall i, upd (l_conn s) k (close (l_conn s k)) i = l_conn s i).
      { intros i. destruct (Nat.eq_dec i k) as [->|Z]; [rewrite upd_same, Y; reflexivity|now rewrite upd_other]. }
      constructor; cbn [l_dead l_n l_loop l_conn]; auto.
      * intros i Hi. rewrite U. auto.
      * intros i. rewrite U. apply DI.
      * intros i. rewrite U. apply CI.
  - (* Step *)
    destruct (l_loop s l) as [| |d|d k|d k id|] eqn:E; try exact H.
    + assert (EL : l = cur s) by (apply running; auto; rewrite E; discriminate).
      pose proof (v_own _ H l) as OW. rewrite E in OW. cbn [own_loop] in OW. subst d.
      pose proof (v_dialed _ H l) as DL. rewrite E in DL. rewrite <- EL, DL.
      assert (LT : (l < l_n s)%nat) by (apply started; auto; rewrite E; discriminate).
      destruct H as [D N O W DI CI]. constructor; cbn [l_dead l_n l_loop l_conn]; auto.
      * intros i Hi. destruct (N i Hi). rewrite upd_other by lia. auto.
      * intros i Hi. rewrite upd_other; [auto|]. intros ->. rewrite (O l Hi) in E. discriminate E.
      * intros i. destruct (Nat.eq_dec i l) as [->|X]; [rewrite upd_same; split; reflexivity|rewrite upd_other by auto; auto].
      * intros i. destruct (Nat.eq_dec i l) as [->|X]; [rewrite upd_same; exact DL|rewrite upd_other by auto; apply DI].
      * intros i. rewrite handled_same. destruct (Nat.eq_dec i l) as [->|X]; [rewrite upd_same|rewrite upd_other by auto; apply CI].
        specialize (CI l). rewrite E in CI. exact CI.
    + pose proof (v_own _ H l) as OW. rewrite E in OW. destruct OW as [-> ->].
      pose proof (v_dialed _ H l) as DL. rewrite E in DL.
      assert (LT : (l < l_n s)%nat) by (apply started; auto; rewrite E; discriminate).
      destruct (c_open (l_conn s l)) eqn:OP.
      * destruct (c_in (l_conn s l)) as [|id t] eqn:CIN; [exact H|].
        destruct H as [D N O W DI CI]. constructor; cbn [l_dead l_n l_loop l_conn]; auto.
        -- intros i Hi. destruct (N i Hi). rewrite !upd_other by lia. auto.
        -- intros i Hi. rewrite upd_other; [auto|]. intros ->. rewrite (O l Hi) in E. discriminate E.
        -- intros i. destruct (Nat.eq_dec i l) as [->|X]; [rewrite upd_same; split; reflexivity|rewrite upd_other by auto; auto].
        -- intros i. destruct (Nat.eq_dec i l) as [->|X]; [rewrite !upd_same; exact DL|rewrite !upd_other by auto; apply DI].
        -- intros i. rewrite handled_same. destruct (Nat.eq_dec i l) as [->|X]; [rewrite !upd_same|rewrite !upd_other by auto; apply CI].
           specialize (CI l). rewrite E in CI. destruct CI as [A B]. rewrite OP in B. rewrite CIN in A.
           split; cbn [c_arrived c_in c_open c_acks c_send doing]; [exact A|exact B].
      * destruct H as [D N O W DI CI]. constructor; cbn [l_dead l_n l_loop l_conn]; auto.
        -- intros i Hi. destruct (N i Hi). rewrite !upd_other by lia. auto.
        -- intros i Hi. destruct (Nat.eq_dec i l) as [->|X]; [now rewrite upd_same|rewrite upd_other by auto; auto].
        -- intros i. destruct (Nat.eq_dec i l) as [->|X]; [rewrite upd_same; exact Logic.I|rewrite upd_other by auto; auto].
        -- intros i. destruct (Nat.eq_dec i l) as [->|X]; [rewrite upd_same; exact Logic.I|rewrite !upd_other by auto; apply DI].
        -- intros i. rewrite handled_same. destruct (Nat.eq_dec i l) as [->|X]; [rewrite !upd_same|rewrite !upd_other by auto; apply CI].
           specialize (CI l). rewrite E in CI. apply (close_inv _ LDone). exact CI.
    + assert (EL : l = cur s) by (apply running; auto; rewrite E; discriminate).
      pose proof (v_own _ H l) as OW. rewrite E in OW. destruct OW as [-> ->].
      pose proof (v_dialed _ H l) as DL. rewrite E in DL. rewrite <- EL.
      assert (LT : (l < l_n s)%nat) by (apply started; auto; rewrite E; discriminate).
      destruct H as [D N O W DI CI]. constructor; cbn [l_dead l_n l_loop l_conn]; auto.
      * intros i Hi. destruct (N i Hi). rewrite !upd_other by lia. auto.
      * intros i Hi. rewrite upd_other; [auto|]. intros ->. rewrite (O l Hi) in E. discriminate E.
      * intros i. destruct (Nat.eq_dec i l) as [->|X]; [rewrite upd_same; reflexivity|rewrite upd_other by auto; auto].
      * intros i. destruct (Nat.eq_dec i l) as [->|X]; [rewrite !upd_same; exact DL|rewrite !upd_other by auto; apply DI].
      * intros i. rewrite handled_app. destruct (Nat.eq_dec i l) as [->|X].
        -- rewrite !upd_same, Nat.eqb_refl. specialize (CI l). rewrite E in CI. destruct CI as [A B].
           split; cbn [c_arrived c_in c_open c_acks c_send doing app].
           ++ rewrite A. cbn [doing]. now rewrite <- app_assoc.
           ++ destruct (c_open (l_conn s l)); [rewrite app_assoc, B; reflexivity|].
              destruct B as (r & B). exists (r ++ [id]). now rewrite B, app_assoc.
        -- rewrite !upd_other by auto. destruct (Nat.eqb l i) eqn:Y; [apply Nat.eqb_eq in Y; congruence|].
           rewrite app_nil_r. apply CI.
  - (* Write *)
    destruct (c_writer (l_conn s k)) eqn:WR; [|exact H].
    destruct (c_send (l_conn s k)) as [|id t] eqn:SE; [exact H|].
    assert (LT : (k < l_n s)%nat).
    { destruct (Nat.lt_ge_cases k (l_n s)) as [L|L]; auto. destruct (v_new _ H k L) as [_ X]. rewrite X in WR. discriminate WR. }
    assert (ND : l_loop s k <> LDial).
    { intros X. pose proof (v_dialed _ H k) as Y. rewrite X in Y. rewrite Y in WR. discriminate WR. }
    destruct (v_conn _ H k) as [A B].
    destruct (c_open (l_conn s k)) eqn:OP; apply sinv_conn; auto; try contradiction.
    + split; cbn [c_arrived c_in c_open c_acks c_send]; [exact A|]. rewrite SE in B. now rewrite <- app_assoc.
    + split; cbn [c_arrived c_in c_open c_acks c_send]; [exact A|exact B].
Qed.

Lemma sinv_run : forall h s, sinv s -> serial s h -> sinv (lrun s h).
Proof.
  induction h as [|e h IH]; intros s H S; auto. destruct S as [S1 S2].
  apply (IH (lstep s e)); auto. now apply sinv_step.
Qed.
Lemma sinv_init : sinv linit.
Proof.
  constructor; cbn [linit l_dead l_n l_loop l_conn]; auto.
  - intros i Hi. lia.
  - intros i. exact Logic.I.
  - intros i. split; [reflexivity|]. exists []. reflexivity.
Qed.

(* ------------------------------------------------------------------------------------------ *)
(* C165. Full statement: the acknowledgements sent over a connection are of requests that came over that
   connection, in their order, each once and only after it was handled; requests of a connection are
   handled in the order in which the server sent them. It holds, for any sequence of arrivals, losses of
   connections, stops and starts, as long as StartListening is not called before the earlier call has
   returned. *)
Theorem C165_serial_partial : forall h, serial linit h ->
  let s := lrun linit h in
  l_dead s = false /\
  forall k, prefix (c_acks (l_conn s k)) (handled_from k s) /\ prefix (handled_from k s) (c_arrived (l_conn s k)).
Proof.
  intros h S s. pose proof (sinv_run h linit sinv_init S) as H. fold s in H. split; [apply H|].
  intros k. destruct (v_conn _ H k) as [A B]. split.
  - destruct (c_open (l_conn s k)); [exists (c_send (l_conn s k)); now rewrite B|exact B].
  - exists (doing (l_loop s k) ++ c_in (l_conn s k)). exact A.
Qed.

(* Without that it is false. StopListening does not wait for the loop; if the application stops and starts
   again while a message is being handled, the acknowledgement goes over the new connection, where the
   server has sent nothing with that number, and the old one never gets it; the old loop then reads from
   the new connection, side by side with the new loop. *)
Theorem C165_wrong_connection_refuted : exists h,
  let s := lrun linit h in
  l_dead s = false /\ c_arrived (l_conn s 0%nat) = [7] /\ c_acks (l_conn s 0%nat) = [] /\
  c_arrived (l_conn s 1%nat) = [] /\ c_acks (l_conn s 1%nat) = [7] /\
  l_loop s 0%nat = LBlocked 0 1 /\ l_loop s 1%nat = LBlocked 1 1.
Proof.
  exists [Start; Dial 0 true; Arrive 0 7; Step 0; Step 0; Stop; Start; Dial 1 true; Step 1; Step 0; Step 0; Write 1].
  vm_compute. repeat split; reflexivity.
Qed.

(* Two calls of StartListening that overlap while connecting end the process: the first to be connected
   goes on with the connection of the second, which has none yet. *)
Theorem C165_two_starts_refuted : exists h, l_dead (lrun linit h) = true /\
  Forall (fun e => e = Start \/ e = Dial 0 true) h.
Proof. exists [Start; Start; Dial 0 true]. split; [vm_compute; reflexivity|].
  constructor; [now left|]. constructor; [now left|]. constructor; [now right|]. constructor. Qed.
Print Assumptions C165_serial_partial.
Print Assumptions C165_wrong_connection_refuted.
Print Assumptions C165_two_starts_refuted.

(* for computation *)
Definition doneb (t : loop) : bool := match t with LDone => true | _ => false end.
Fixpoint serialb (s : lstate) (h : list levent) : bool :=
  match h with
  | [] => true
  | e :: t => match e with Start => forallb (fun l => doneb (l_loop s l)) (seq 0 (l_n s)) | _ => true end
              && serialb (lstep s e) t
  end.
Lemma serialb_ok : forall h s, serialb s h = true -> serial s h.
Proof.
  induction h as [|e h IH]; intros s H; cbn [serial serialb] in *; [exact Logic.I|].
  apply andb_true_iff in H. destruct H as [H1 H2]. split; [|now apply IH].
  intros -> l Hl. rewrite forallb_forall in H1. specialize (H1 l). rewrite in_seq in H1.
  specialize (H1 ltac:(lia)). destruct (l_loop s l); try discriminate H1. reflexivity.
Qed.

Definition ex_serial : list levent :=
  [Start; Dial 0 true; Step 0; Arrive 0 7; Arrive 0 8; Step 0; Stop; Step 0; Step 0; Step 0; Write 0;
   Start; Dial 1 true; Step 1; Arrive 1 9; Arrive 1 10; Step 1; Step 1; Write 1].
Example C165_example : serial linit ex_serial /\
  let s := lrun linit ex_serial in
  handled_from 0 s = [7] /\ c_acks (l_conn s 0%nat) = [] /\ handled_from 1 s = [9] /\ c_acks (l_conn s 1%nat) = [9].
Proof.
  split; [|vm_compute; repeat split; reflexivity].
  apply serialb_ok. vm_compute. reflexivity.
Qed.

(* ------------------------------------------------------------------------------------------ *)
(* C166. Full statement: after StopListening has returned nil, no message is handled but the one being
   handled at that moment, until StartListening is called again. It is false: a stop during connecting
   does nothing, and still returns nil. *)
Definition no_start (h : list levent) : Prop := Forall (fun e => e <> Start) h.

Theorem C166_stop_ignored_refuted : exists h1 h2,
  let s := lrun linit h1 in let s' := lrun (lstep s Stop) h2 in
  stop_ok s = true /\ no_start h2 /\ l_handled s = [] /\ map snd (l_handled s') = [1; 2].
Proof.
  exists [Start], [Dial 0 true; Step 0; Arrive 0 1; Step 0; Step 0; Arrive 0 2; Step 0; Step 0; Step 0].
  split; [vm_compute; reflexivity|]. split; [repeat constructor; discriminate|]. vm_compute. split; reflexivity.
Qed.

(* It holds once the connection stands: whatever arrives afterwards and however the loop goes on, at most
   the message in hand is handled. *)
Definition stopped (s0 s : lstate) : Prop :=
  sinv s /\ l_n s = l_n s0 /\ c_open (l_conn s (cur s)) = false /\ c_dialed (l_conn s (cur s)) = true /\
  l_loop s (cur s) <> LDial /\
  exists extra, l_handled s = l_handled s0 ++ extra /\
    (length extra + length (doing (l_loop s (cur s))) <= length (doing (l_loop s0 (cur s0))))%nat.

Lemma stopped_step : forall s0 s e, stopped s0 s -> e <> Start -> stopped s0 (lstep s e).
Proof.
  intros s0 s e (H & EN & OP & DI & ND & extra & EX & LE) NS.
  assert (H' : sinv (lstep s e)) by (apply sinv_step; auto; intros; contradiction).
  assert (G : forall c', c_open c' = false -> c_dialed c' = true -> forall k,
    c_open (upd (l_conn s) k c' (cur s)) = false /\ c_dialed (upd (l_conn s) k c' (cur s)) = true).
  { intros c' X1 X2 k. destruct (Nat.eq_dec (cur s) k) as [->|N]; [rewrite upd_same|rewrite upd_other by auto]; auto. }
  assert (C0 : forall cs, sinv (mkL cs (l_loop s) (l_n s) (l_handled s) false) ->
    c_open (cs (cur s)) = false -> c_dialed (cs (cur s)) = true ->
    stopped s0 (mkL cs (l_loop s) (l_n s) (l_handled s) false)).
  { intros cs HS X1 X2. split; [exact HS|]. split; [exact EN|]. split; [exact X1|]. split; [exact X2|]. split; [exact ND|].
    exists extra. split; [exact EX|exact LE]. }
  assert (SM : stopped s0 s) by (do 5 (split; [assumption|]); exists extra; split; assumption).
  unfold lstep in *. rewrite (v_dead _ H) in *. destruct e as [|l ok| |k id|k|l|k].
  - contradiction.
  - destruct (l_loop s l) eqn:E; try exact SM. exfalso. apply ND.
    replace (cur s) with l; [exact E|]. apply running; auto; rewrite E; discriminate.
  - destruct (Nat.eqb (l_n s) 0); [exact SM|]. rewrite DI in *. apply C0; auto; rewrite upd_same; auto.
  - destruct (c_open (l_conn s k)) eqn:OK; [|exact SM]. apply C0; auto; rewrite upd_other; auto; congruence.
  - apply C0; auto; (destruct (Nat.eq_dec (cur s) k) as [<-|N]; [rewrite upd_same|rewrite upd_other by auto]); auto.
  - destruct (l_loop s l) as [| |d|d k|d k id|] eqn:E; try exact SM.
    + assert (EL : l = cur s) by (apply running; auto; rewrite E; discriminate). rewrite DI in *.
      split; [exact H'|]. split; [exact EN|]. split; [exact OP|]. split; [exact DI|].
      change (cur (mkL (l_conn s) (upd (l_loop s) l (LBlocked d (cur s))) (l_n s) (l_handled s) false)) with (cur s).
      cbn [l_loop l_handled]. rewrite <- EL, upd_same. split; [discriminate|].
      exists extra. split; [exact EX|]. rewrite <- EL, E in LE. exact LE.
    + assert (EL : l = cur s) by (apply running; auto; rewrite E; discriminate).
      pose proof (v_own _ H l) as OW. rewrite E in OW. destruct OW as [-> ->]. rewrite EL, OP in *.
      split; [exact H'|]. split; [exact EN|]. unfold cur in *. cbn [l_n l_loop l_conn l_handled] in *.
      rewrite !upd_same. cbn [close c_open c_dialed]. split; [reflexivity|]. split; [exact DI|]. split; [discriminate|].
      exists extra. split; [exact EX|]. rewrite E in LE. exact LE.
    + assert (EL : l = cur s) by (apply running; auto; rewrite E; discriminate).
      rewrite EL in *. split; [exact H'|]. split; [exact EN|]. unfold cur in *. cbn [l_n l_loop l_conn l_handled] in *.
      rewrite !upd_same. cbn [c_open c_dialed]. split; [exact OP|]. split; [exact DI|]. split; [discriminate|].
      exists (extra ++ [(k, id)]). split; [rewrite EX; now rewrite app_assoc|].
      rewrite E in LE. cbn [doing length] in LE |- *. rewrite app_length. cbn [length]. lia.
  - destruct (c_writer (l_conn s k)); [|exact SM]. destruct (c_send (l_conn s k)) as [|id t]; [exact SM|].
    destruct (c_open (l_conn s k)) eqn:OK.
    + apply C0; auto; rewrite upd_other; auto; congruence.
    + apply C0; auto; (destruct (Nat.eq_dec (cur s) k) as [<-|N]; [rewrite upd_same|rewrite upd_other by auto]); auto.
Qed.

Theorem C166_stop_partial : forall h1 h2,
  serial linit h1 -> let s := lrun linit h1 in
  stop_ok s = true -> c_dialed (l_conn s (cur s)) = true -> no_start h2 ->
  let s' := lrun (lstep s Stop) h2 in
  exists extra, l_handled s' = l_handled s ++ extra /\
    (length extra <= match l_loop s (cur s) with LHandle _ _ _ => 1 | _ => 0 end)%nat.
Proof.
  intros h1 h2 S s SO DI NS s'. pose proof (sinv_run h1 linit sinv_init S) as H. fold s in H.
  assert (ST : stopped s (lstep s Stop)).
  { assert (H' : sinv (lstep s Stop)) by (apply sinv_step; auto; intros X; discriminate X).
    unfold lstep in *. rewrite (v_dead _ H) in *. unfold stop_ok in SO. destruct (Nat.eqb (l_n s) 0); [discriminate SO|].
    rewrite DI in *. split; [exact H'|]. split; [reflexivity|].
    change (cur (mkL (upd (l_conn s) (cur s) (close (l_conn s (cur s)))) (l_loop s) (l_n s) (l_handled s) false)) with (cur s).
    cbn [l_conn l_loop l_handled]. rewrite upd_same. split; [reflexivity|]. split; [exact DI|]. split.
    - intros X. pose proof (v_dialed _ H (cur s)) as Y. rewrite X in Y. rewrite Y in DI. discriminate DI.
    - exists []. split; [now rewrite app_nil_r|cbn [length]; lia]. }
  assert (SR : stopped s s').
  { unfold s'. clear - ST NS. revert ST. generalize (lstep s Stop) as x. induction NS as [|e h2 He NS IH]; intros x ST; auto.
    apply (IH (lstep x e)). now apply stopped_step. }
  destruct SR as (_ & _ & _ & _ & _ & extra & EX & LE). exists extra. split; [exact EX|].
  destruct (l_loop s (cur s)); cbn [doing length] in LE; lia.
Qed.
Print Assumptions C166_stop_ignored_refuted.
Print Assumptions C166_stop_partial.

Example C166_example : let h1 := [Start; Dial 0 true; Step 0; Arrive 0 7; Arrive 0 8; Step 0] in
  let h2 := [Arrive 0 9; Step 0; Step 0; Step 0; Step 0; Step 0] in
  let s := lrun linit h1 in
  stop_ok s = true /\ c_dialed (l_conn s (cur s)) = true /\
  l_handled s = [] /\ l_handled (lrun (lstep s Stop) h2) = [(0%nat, 7)].
Proof. vm_compute. repeat split; reflexivity. Qed.
