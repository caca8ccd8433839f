(* C226: nothing is lost over connections (/repo/websocket.go 77-141, 144-229). *)
From Coq Require Import ZArith List Lia Bool Arith.
From Verif Require Import Bytes Res Content Builder Receiving AckQueue PropAckQueue Reconnect.
Import ListNotations.
Open Scope Z_scope.

(* What the server has forgotten was handled; what it keeps is the rest of what was sent, in order. *)
Theorem C226_none_lost : forall sent kept conns, life sent kept conns ->
  exists forgotten, sent = forgotten ++ kept /\ forall id, In id forgotten -> In id (concat conns).
Proof.
  intros sent kept conns L. induction L as [|sent kept conns new L (f & E & H)|sent kept conns h k L (f & E & H) (rest & P) K].
  - exists []. split; [reflexivity|]. intros id [].
  - exists f. split; [rewrite E, <- app_assoc; reflexivity|exact H].
  - exists (f ++ firstn k kept). split; [rewrite <- app_assoc, firstn_skipn; exact E|].
    intros id I0. rewrite concat_app. apply in_or_app. apply in_app_or in I0. destruct I0 as [I0|I0]; [left; apply H; exact I0|].
    right. cbn [concat]. rewrite app_nil_r.
    destruct (C225_order h) as [(r1 & A) (r2 & B)]. cbn zeta in A, B.
    assert (Q : kept = as_acks (arun ainit h) ++ (r2 ++ r1 ++ rest)) by (rewrite P, A, B, <- !app_assoc; reflexivity).
    rewrite Q, firstn_app in I0. replace (k - length (as_acks (arun ainit h)))%nat with 0%nat in I0 by lia.
    cbn [firstn] in I0. rewrite app_nil_r in I0. rewrite B. apply in_or_app. left.
    rewrite <- (firstn_skipn k). apply in_or_app. left. exact I0.
Qed.
Print Assumptions C226_none_lost.

(* Whatever is handled over a connection was kept by the server when it was made, in order. *)
Theorem C226_handled : forall h sent kept conns, life sent kept conns ->
  (exists rest, kept = as_arrived (arun ainit h) ++ rest) -> exists rest, kept = as_handled (arun ainit h) ++ rest.
Proof.
  intros h sent kept conns _ (rest & P). destruct (C225_order h) as [(r & A) _]. cbn zeta in A.
  exists (r ++ rest). rewrite P, A, <- app_assoc. reflexivity.
Qed.
Print Assumptions C226_handled.

(* At most 258 messages of a connection were handled without their acknowledgement having been written: so many are handled
   again over the next. *)
Definition pending_acks (s : astate) : nat := ((match as_writer s with WSelect => 0 | _ => 1 end) + length (as_queue s) + length (waiting (as_reader s)))%nat.
Lemma again_step s e : ainv s -> (length (as_handled s) <= length (as_acks s) + pending_acks s)%nat ->
  (length (as_handled (astep s e)) <= length (as_acks (astep s e)) + pending_acks (astep s e))%nat.
Proof.
  intros G H. pose proof (iv_acked s G) as AQ. unfold pending_acks in *. destruct s as [r w q o ar i h a].
  destruct e as [id|lf| | |ok| |]; cbn [astep]; parts.
  - destruct o; parts; exact H.
  - destruct r as [|id|id|]; parts; cbn [waiting length] in *.
    + destruct i as [|id i]; [destruct o|destruct (o || lf)]; parts; cbn [waiting length]; lia.
    + rewrite app_length. cbn [length]. lia.
    + destruct (Nat.ltb (length q) channel_size); parts; cbn [waiting length]; [rewrite app_length; cbn [length]; lia|lia].
    + exact H.
  - destruct w as [|m|]; [|exact H..]. destruct q as [|id q]; [exact H|]. parts. cbn [length] in H. lia.
  - destruct w as [|m|]; [|exact H..]. parts. lia.
  - destruct w as [|m|]; [exact H| |exact H]. destruct (o && ok); parts; [|exact H].
    rewrite (AQ ltac:(intros X; discriminate X)). rewrite !app_length. destruct m; cbn [writing length]; lia.
  - exact H.
  - exact H.
Qed.
Theorem C226_again : forall h, let s := arun ainit h in (length (as_handled s) <= length (as_acks s) + 258)%nat.
Proof.
  intros h s.
  assert (G : ainv s /\ (length (as_handled s) <= length (as_acks s) + pending_acks s)%nat).
  { unfold s. generalize ainv_init. assert (B : (length (as_handled ainit) <= length (as_acks ainit) + pending_acks ainit)%nat) by (cbn; lia).
    revert B. generalize ainit as t. induction h as [|e h IH]; intros t B I0; [split; assumption|].
    cbn [arun fold_left]. apply IH; [apply again_step; assumption|apply ainv_step; exact I0]. }
  destruct G as [I0 H]. pose proof (iv_queue s I0) as Q. unfold channel_size in Q. unfold pending_acks in H.
  assert (length (waiting (as_reader s)) <= 1)%nat by (destruct (as_reader s); cbn [waiting length]; lia).
  destruct (as_writer s); lia.
Qed.
Print Assumptions C226_again.
(* The bound is reached. *)
Theorem C226_again_reached : exists h, length (as_handled (arun ainit h)) = (length (as_acks (arun ainit h)) + 258)%nat.
Proof. exists stall. vm_compute. reflexivity. Qed.
Print Assumptions C226_again_reached.

(* However much the server keeps, there is a course of one connection by which everything is handled and forgotten. *)
Definition undisturbed (kept : list Z) : list aevent :=
  flat_map (fun id => [Arrive id; Loop false; Loop false; Loop false; Worker; Written true]) kept.
Lemma undisturbed_run kept : forall ar h a, arun (mkA RRead WSelect [] true ar [] h a) (undisturbed kept)
  = mkA RRead WSelect [] true (ar ++ kept) [] (h ++ kept) (a ++ kept).
Proof.
  induction kept as [|id kept IH]; intros ar h a; [rewrite !app_nil_r; reflexivity|].
  change (undisturbed (id :: kept)) with ([Arrive id; Loop false; Loop false; Loop false; Worker; Written true] ++ undisturbed kept).
  unfold arun in *. rewrite fold_left_app.
  replace (fold_left astep [Arrive id; Loop false; Loop false; Loop false; Worker; Written true] (mkA RRead WSelect [] true ar [] h a))
    with (mkA RRead WSelect [] true (ar ++ [id]) [] (h ++ [id]) (a ++ [id])) by reflexivity.
  rewrite IH, <- !app_assoc. reflexivity.
Qed.
Theorem C226_caught_up : forall sent kept conns, life sent kept conns -> exists got, life sent [] (conns ++ [got]) /\ got = kept.
Proof.
  intros sent kept conns L. exists kept. split; [|reflexivity].
  pose proof (undisturbed_run kept [] [] []) as R. cbn [app] in R. change (mkA RRead WSelect [] true [] [] [] []) with ainit in R.
  pose proof (life_conn sent kept conns (undisturbed kept) (length kept) L) as H. rewrite R in H.
  cbn [as_arrived as_acks as_handled] in H. rewrite skipn_all in H. apply H; [exists []; rewrite app_nil_r; reflexivity|lia].
Qed.
Print Assumptions C226_caught_up.

(* Without any disturbance but the loss of the connection a message is handled twice. For messages of peers the session
   refuses the second copy (C04, C191); a receipt of the server is handed to the application each time. *)
Theorem C226_receipt_again : forall C ou ou' st rnd rnd2 rnd' rnd2' e, e_type e = Some 5 -> exists l,
  handleReceivedMessage C ou st rnd rnd2 (Some e) = (Ok tt, l) /\
  handleReceivedMessage C ou' (apply_acts st l) rnd' rnd2' (Some e) = (Ok tt, l) /\ exists uuid dev ts, l = [ACall (HReceipt uuid dev ts)].
Proof.
  intros C ou ou' st rnd rnd2 rnd' rnd2' e T. exists (handleReceipt e). unfold handleReceivedMessage. rewrite T.
  split; [reflexivity|]. split; [reflexivity|]. unfold handleReceipt. do 3 eexists. reflexivity.
Qed.
Print Assumptions C226_receipt_again.

Theorem C226_once_refuted : exists sent kept conns, life sent kept conns /\ NoDup sent /\ ~ NoDup (concat conns).
Proof.
  exists [7; 8], [], [[7]; [7; 8]].
  split; [|split].
  - change (@nil Z) with (skipn 2 [7; 8]) at 1.
    change [[7]; [7; 8]] with ([[7]] ++ [as_handled (arun ainit (undisturbed [7; 8]))]).
    apply (life_conn [7; 8] [7; 8] [[7]] (undisturbed [7; 8]) 2).
    + change [[7]] with ([] ++ [as_handled (arun ainit (requests 1 7 ++ [Break; Loop false]))]).
      apply (life_conn [7; 8] [7; 8] [] (requests 1 7 ++ [Break; Loop false]) 0).
      * apply (life_more [] [] [] [7; 8] life_start).
      * exists [8]. vm_compute. reflexivity.
      * vm_compute. lia.
    + exists []. vm_compute. reflexivity.
    + vm_compute. lia.
  - constructor; [intros [H|[]]; discriminate H|]. constructor; [intros []|constructor].
  - cbn [concat app]. intros N. inversion N as [|x l H _]; subst. apply H. left. reflexivity.
Qed.
Print Assumptions C226_once_refuted.

Example C226_example :
  let h := requests 3 10 ++ [Worker; Written true; Worker; Arrive 13; Break; Loop false; Written true] in
  life [10; 11; 12; 13; 14] [11; 12; 13; 14] [[10; 11; 12]] /\ as_acks (arun ainit h) = [10] /\
  as_reader (arun ainit h) = RDone /\ as_writer (arun ainit h) = WDone.
Proof.
  cbn zeta. split; [|vm_compute; split; [reflexivity|split; reflexivity]].
  change [11; 12; 13; 14] with (skipn 1 [10; 11; 12; 13; 14]).
  change [[10; 11; 12]] with ([] ++ [as_handled (arun ainit (requests 3 10 ++ [Worker; Written true; Worker; Arrive 13; Break; Loop false; Written true]))]).
  apply life_conn; [apply (life_more [] [] [] _ life_start)|exists [14]; vm_compute; reflexivity|vm_compute; lia].
Qed.
