(* C225: a connection that is lost ends StartListening (/repo/websocket.go 77-141, 144-229, 236-246). *)
From Coq Require Import ZArith List Lia Bool Arith.
From Verif Require Import AckQueue.
Import ListNotations.
Open Scope Z_scope.

Definition is_loop (e : aevent) : bool := match e with Loop _ => true | _ => false end.
Definition returned (s : astate) : Prop := as_reader s = RDone.
Definition lost (s : astate) : Prop := as_open s = false.

(* What holds of every state that can be reached *)
Definition busy (r : reader) : nat := match r with RHandle _ | RSend _ => 1%nat | _ => 0%nat end.
Definition weight (r : reader) : nat := match r with RHandle _ => 2%nat | RSend _ => 1%nat | _ => 0%nat end.
Definition held (r : reader) : list Z := match r with RHandle id => [id] | _ => [] end.
Definition waiting (r : reader) : list Z := match r with RSend id => [id] | _ => [] end.
Definition writing (w : writer) : list Z := match w with WWriting (Some id) => [id] | _ => [] end.
Record ainv (s : astate) : Prop := {
  iv_count : (length (as_queue s) + busy (as_reader s) + length (as_in s) <= length (as_arrived s))%nat;
  iv_queue : (length (as_queue s) <= channel_size)%nat;
  iv_writer : as_writer s = WDone -> as_open s = false;
  iv_done : as_reader s = RDone -> as_open s = false;
  iv_read : exists rest, as_arrived s = (as_handled s ++ held (as_reader s)) ++ rest /\ rest = as_in s;
  iv_acked : as_writer s <> WDone -> as_handled s = (as_acks s ++ writing (as_writer s) ++ as_queue s) ++ waiting (as_reader s);
  iv_gone : exists rest, as_handled s = as_acks s ++ rest }.
Lemma ainv_init : ainv ainit.
Proof.
  constructor; cbn.
  1-2: unfold channel_size; lia.
  1-2: intros H; discriminate H.
  - exists []. split; reflexivity.
  - intros _. reflexivity.
  - exists []. reflexivity.
Qed.
Ltac parts := cbn [as_reader as_writer as_queue as_open as_arrived as_in as_handled as_acks] in *.
Lemma ainv_step s e : ainv s -> ainv (astep s e).
Proof.
  destruct s as [r w q o ar i h a]. intros [I1 I2 I3 I4 I5 I6 I7]. parts. destruct I5 as (rest & I5 & ->). destruct I7 as (rest7 & I7).
  destruct e as [id|lf| | |ok| |]; cbn [astep]; parts.
  - destruct o.
    + constructor; parts; auto.
      * rewrite !app_length. cbn [length]. lia.
      * exists (i ++ [id]). split; [rewrite I5, <- app_assoc; reflexivity|reflexivity].
      * exists rest7. exact I7.
    + constructor; parts; auto; [exists i; split; [exact I5|reflexivity]|exists rest7; exact I7].
  - destruct r as [|id|id|].
    + assert (GU : ainv (mkA RDone w q false ar i h a)).
      { constructor; parts; cbn [busy held waiting] in *; auto; [exists i; split; [exact I5|reflexivity]|exists rest7; exact I7]. }
      destruct i as [|id i].
      * destruct o; [|exact GU]. constructor; parts; auto; [exists []; split; [exact I5|reflexivity]|exists rest7; exact I7].
      * destruct (o || lf); [|exact GU].
        constructor; parts; cbn [busy held waiting length] in *; auto.
        -- lia.
        -- intros H. discriminate H.
        -- exists i. split; [rewrite I5, app_nil_r, <- app_assoc; reflexivity|reflexivity].
        -- exists rest7. exact I7.
    + constructor; parts; cbn [busy held waiting length] in *; auto.
      * intros H. discriminate H.
      * exists i. split; [rewrite I5, app_nil_r; reflexivity|reflexivity].
      * intros H. rewrite (I6 H), app_nil_r. reflexivity.
      * exists (rest7 ++ [id]). rewrite I7, <- app_assoc. reflexivity.
    + destruct (Nat.ltb_spec (length q) channel_size) as [L|L].
      * constructor; parts; cbn [busy held waiting length] in *; auto.
        -- rewrite app_length. cbn [length]. lia.
        -- rewrite app_length. cbn [length]. lia.
        -- intros H. discriminate H.
        -- exists i. split; [exact I5|reflexivity].
        -- intros H. rewrite (I6 H), app_nil_r, <- !app_assoc. reflexivity.
        -- exists rest7. exact I7.
      * constructor; parts; auto; [exists i; split; [exact I5|reflexivity]|exists rest7; exact I7].
    + constructor; parts; auto; [exists i; split; [exact I5|reflexivity]|exists rest7; exact I7].
  - assert (G : ainv (mkA r w q o ar i h a)) by (constructor; parts; auto; [exists i; split; [exact I5|reflexivity]|exists rest7; exact I7]).
    destruct w as [|m|]; [|exact G..]. destruct q as [|id q]; [exact G|].
    constructor; parts; cbn [length writing] in *; auto; try lia.
    + intros H. discriminate H.
    + exists i. split; [exact I5|reflexivity].
    + intros _. apply I6. intros H. discriminate H.
    + exists rest7. exact I7.
  - assert (G : ainv (mkA r w q o ar i h a)) by (constructor; parts; auto; [exists i; split; [exact I5|reflexivity]|exists rest7; exact I7]).
    destruct w as [|m|]; [|exact G..].
    constructor; parts; cbn [length writing] in *; auto.
    + intros H. discriminate H.
    + exists i. split; [exact I5|reflexivity].
    + intros _. apply I6. intros H. discriminate H.
    + exists rest7. exact I7.
  - assert (G : ainv (mkA r w q o ar i h a)) by (constructor; parts; auto; [exists i; split; [exact I5|reflexivity]|exists rest7; exact I7]).
    destruct w as [|m|]; [exact G| |exact G]. destruct (o && ok) eqn:E.
    + apply Bool.andb_true_iff in E. destruct E as [-> _].
      assert (I6' : h = (a ++ writing (WWriting m) ++ q) ++ waiting r) by (apply I6; intros H; discriminate H).
      constructor; parts; auto.
      * intros H. discriminate H.
      * exists i. split; [exact I5|reflexivity].
      * intros _. rewrite I6'. cbn [writing app]. destruct m; rewrite <- !app_assoc; reflexivity.
      * destruct m; cbn [writing app] in I6'; rewrite <- !app_assoc in I6'; eexists; rewrite <- app_assoc; exact I6'.
    + constructor; parts; auto.
      * exists i. split; [exact I5|reflexivity].
      * intros H. exfalso. apply H. reflexivity.
      * exists rest7. exact I7.
  - constructor; parts; auto; [exists i; split; [exact I5|reflexivity]|exists rest7; exact I7].
  - constructor; parts; auto; [exists i; split; [exact I5|reflexivity]|exists rest7; exact I7].
Qed.
Lemma ainv_run h : forall s, ainv s -> ainv (arun s h).
Proof. induction h as [|e h IH]; intros s H; [exact H|]. cbn [arun fold_left]. apply IH. apply ainv_step. exact H. Qed.

(* Requests are handled in the order of arrival, each once, and acknowledged after that in the same order, each at most once;
   while the worker runs, those handled are acknowledged, being acknowledged or in the channel. *)
Theorem C225_order : forall h, let s := arun ainit h in
  (exists rest, as_arrived s = as_handled s ++ rest) /\ (exists rest, as_handled s = as_acks s ++ rest).
Proof.
  intros h s. pose proof (ainv_run h ainit ainv_init) as G. fold s in G. destruct G as [_ _ _ _ (r & H & _) _ H7].
  split; [|exact H7]. exists (held (as_reader s) ++ r). rewrite H, <- app_assoc. reflexivity.
Qed.
Print Assumptions C225_order.

(* A lost connection on which at most 256 requests came: whatever the worker did or did not do, and whatever was left in the
   read buffer, the loop returns after a bounded number of its own steps. *)
Lemma drains l : forall s, ainv s -> lost s -> (length (as_arrived s) <= 256)%nat ->
  (3 * length (as_in s) + weight (as_reader s) < length l)%nat -> forallb is_loop l = true -> returned (arun s l).
Proof.
  assert (D : forall l s, returned s -> forallb is_loop l = true -> returned (arun s l)).
  { clear. induction l as [|e l IH]; intros s R F; [exact R|]. cbn [forallb] in F. apply Bool.andb_true_iff in F. destruct F as [F1 F2].
    destruct e; try discriminate F1. cbn [arun fold_left astep]. unfold returned in R. rewrite R. apply IH; assumption. }
  induction l as [|e l IH]; intros s G Lo A M F; [cbn [length] in M; lia|].
  cbn [forallb] in F. apply Bool.andb_true_iff in F. destruct F as [F1 F2]. destruct e as [|lf| | | | |]; try discriminate F1.
  pose proof (ainv_step s (Loop lf) G) as G'. cbn [arun fold_left].
  change (fold_left astep l (astep s (Loop lf))) with (arun (astep s (Loop lf)) l).
  destruct s as [r w q o ar i h a]. unfold lost in *. parts. subst o. cbn [length] in M.
  cbn [astep] in *. parts. destruct r as [|id|id|]; cbn [weight] in M.
  - destruct i as [|id i].
    + apply D; [reflexivity|exact F2].
    + cbn [orb] in *. destruct lf; [|apply D; [reflexivity|exact F2]].
      apply IH; parts; auto. cbn [length weight] in *. lia.
  - apply IH; parts; auto. cbn [weight]. lia.
  - destruct G as [I1 _ _ _ _ _ _]. parts. cbn [busy] in I1.
    assert (L : Nat.ltb (length q) channel_size = true) by (apply Nat.ltb_lt; unfold channel_size; lia).
    rewrite L in *. apply IH; parts; auto. cbn [weight]. lia.
  - apply D; [reflexivity|exact F2].
Qed.
Theorem C225_returns_partial : forall h l, let s := arun ainit h in
  lost s -> (length (as_arrived s) <= 256)%nat -> forallb is_loop l = true -> (3 * length (as_arrived s) + 2 < length l)%nat ->
  returned (arun s l).
Proof.
  intros h l s Lo A F M. pose proof (ainv_run h ainit ainv_init) as G. fold s in G. apply drains; auto.
  destruct G as [I1 _ _ _ _ _ _]. assert (weight (as_reader s) <= 2)%nat by (destruct (as_reader s); cbn [weight]; lia). lia.
Qed.
Print Assumptions C225_returns_partial.

(* When the loop has returned, the worker ends with its next write, and both are gone. *)
Theorem C225_worker_ends : forall h ok, let s := arun ainit h in returned s ->
  as_writer (astep (astep s Tick) (Written ok)) = WDone.
Proof.
  intros h ok s R. pose proof (ainv_run h ainit ainv_init) as G. fold s in G. pose proof (iv_done s G R) as O.
  destruct s as [r w q o ar i hd a]. parts. subst o.
  destruct w as [|m|]; cbn [astep]; parts; reflexivity.
Qed.
Print Assumptions C225_worker_ends.

(* When a write has failed the connection is closed. *)
Theorem C225_write_failed : forall h, as_writer (arun ainit h) = WDone -> lost (arun ainit h).
Proof. intros h. apply (iv_writer _ (ainv_run h ainit ainv_init)). Qed.
Print Assumptions C225_write_failed.

(* The worker has ended while the loop waits for room in the channel: this is for ever. *)
Definition stuck (s : astate) : Prop :=
  as_writer s = WDone /\ (exists id, as_reader s = RSend id) /\ length (as_queue s) = 256%nat.
Lemma stuck_step s e : stuck s -> stuck (astep s e) /\ as_handled (astep s e) = as_handled s /\ as_acks (astep s e) = as_acks s.
Proof.
  intros (W & (id & R) & Q). destruct s as [r w q o ar i h a]. parts. subst r w.
  destruct e as [i0|lf| | |ok| |]; cbn [astep]; parts.
  - destruct o; (split; [split; [reflexivity|split; [exists id; reflexivity|exact Q]]|split; reflexivity]).
  - rewrite Q. cbn [Nat.ltb Nat.leb channel_size].
    replace (Nat.ltb 256 channel_size) with false by reflexivity.
    split; [split; [reflexivity|split; [exists id; reflexivity|exact Q]]|split; reflexivity].
  - split; [split; [reflexivity|split; [exists id; reflexivity|exact Q]]|split; reflexivity].
  - split; [split; [reflexivity|split; [exists id; reflexivity|exact Q]]|split; reflexivity].
  - split; [split; [reflexivity|split; [exists id; reflexivity|exact Q]]|split; reflexivity].
  - split; [split; [reflexivity|split; [exists id; reflexivity|exact Q]]|split; reflexivity].
  - split; [split; [reflexivity|split; [exists id; reflexivity|exact Q]]|split; reflexivity].
Qed.
Theorem C225_stuck : forall s, stuck s -> forall h,
  ~ returned (arun s h) /\ as_handled (arun s h) = as_handled s /\ as_acks (arun s h) = as_acks s.
Proof.
  intros s St h. revert s St. induction h as [|e h IH]; intros s St.
  - split; [|split; reflexivity]. intros R. destruct St as (_ & (id & E) & _). unfold returned in R. cbn [arun fold_left] in R. congruence.
  - cbn [arun fold_left]. destruct (stuck_step s e St) as (S1 & H1 & A1). destruct (IH _ S1) as (N & H2 & A2).
    split; [exact N|]. split; [rewrite <- H1; exact H2|rewrite <- A1; exact A2].
Qed.
Print Assumptions C225_stuck.

(* A lost connection with a loop that never returns, whatever happens: the worker is writing the first acknowledgement
   while 257 more requests arrive and are handled, and the write fails. *)
Fixpoint requests (n : nat) (from : Z) : list aevent :=
  match n with O => [] | S n => Arrive from :: Loop false :: Loop false :: Loop false :: requests n (from + 1) end.
Definition stall : list aevent := requests 1 0 ++ [Worker] ++ requests 257 1 ++ [Written false].
Theorem C225_returns_refuted : exists h, lost (arun ainit h) /\ length (as_arrived (arun ainit h)) = 258%nat /\
  forall h', ~ returned (arun (arun ainit h) h').
Proof.
  exists stall. split; [vm_compute; reflexivity|]. split; [vm_compute; reflexivity|].
  intros h'. apply C225_stuck. split; [vm_compute; reflexivity|]. split; [exists 257; vm_compute; reflexivity|vm_compute; reflexivity].
Qed.
Print Assumptions C225_returns_refuted.

Example C225_example :
  let h := requests 3 10 ++ [Worker; Written true; Worker; Arrive 13; Break] in
  lost (arun ainit h) /\ as_acks (arun ainit h) = [10] /\ as_queue (arun ainit h) = [12] /\ as_in (arun ainit h) = [13] /\
  (* the rest of the read buffer is handled or not *)
  as_handled (arun ainit (h ++ repeat (Loop true) 15)) = [10; 11; 12; 13] /\
  as_handled (arun ainit (h ++ repeat (Loop false) 15)) = [10; 11; 12] /\
  as_reader (arun ainit (h ++ repeat (Loop true) 15)) = RDone /\
  as_writer (arun ainit (h ++ repeat (Loop true) 15 ++ [Written true])) = WDone.
Proof. vm_compute. repeat (split; [reflexivity|]). reflexivity. Qed.
