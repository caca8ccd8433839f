(* C224: when a connection is given up (/repo/websocket.go 20-32, 108-141, 156-229; /repo/crayfish/backend.go 42-56, 227-345). *)
From Coq Require Import ZArith List Lia Bool.
From Verif Require Import Alive.
Import ListNotations.
Open Scope Z_scope.

(* frames arrive one after the other *)
Fixpoint in_order (from : Z) (l : list arrival) : Prop :=
  match l with [] => True | a :: r => from <= a_at a /\ in_order (a_at a) r end.
Definition work_of (f : frame) : Z := match f with Request w => w | _ => 0 end.
(* how long handling the frames takes, all together *)
Definition total_work (l : list arrival) : Z := fold_right (fun a n => work_of (a_frame a) + n) 0 l.
Definition works (l : list arrival) : Prop := Forall (fun a => 0 <= work_of (a_frame a)) l.

(* A server that falls silent: if no pong arrives after T, the loop returns within a minute of T and of the time spent on
   handling messages. *)
Lemma silence_inv T l : forall free dl net cur done,
  in_order cur l -> works l -> Forall (fun a => a_frame a = Pong -> a_at a <= T) l -> net <= free ->
  0 <= T -> 0 <= done ->
  free <= cur + done -> free <= T + done + 60000 -> dl <= T + done + 60000 ->
  snd (listen free dl net l) <= T + 60000 + done + total_work l.
Proof.
  induction l as [|a l IH]; intros free dl net cur done O W P Hn HT Hd F1 F2 D.
  - cbn [listen snd total_work fold_right]. lia.
  - destruct O as [O1 O2]. inversion W as [|x y W1 W2]; subst. inversion P as [|x y P1 P2]; subst.
    assert (TW : 0 <= total_work l).
    { clear -W2. induction W2 as [|b l H W2 IH]; cbn [total_work fold_right]; [lia|]. fold (total_work l). lia. }
    change (total_work (a :: l)) with (work_of (a_frame a) + total_work l). cbn [listen].
    set (buf := a_with a && (a_at a <=? net)).
    assert (B : buf = true -> a_at a <= free).
    { unfold buf. rewrite Bool.andb_true_iff, Z.leb_le. lia. }
    set (s := if buf then free else Z.max free (a_at a)).
    assert (S0 : s = Z.max free (a_at a)).
    { unfold s. destruct buf; [specialize (B eq_refl); lia|reflexivity]. }
    clearbody s buf.
    destruct (buf || (s <? dl)) eqn:G; [|cbn [snd]; destruct (a_frame a); cbn [work_of] in *; lia].
    assert (SB : s <= T + done + 60000).
    { apply Bool.orb_true_iff in G. destruct G as [G|G]; [specialize (B G); lia|apply Z.ltb_lt in G; lia]. }
    assert (NB : (if buf then net else s) <= s) by (destruct buf; lia).
    destruct (a_frame a) as [|w| |]; cbn [work_of] in *.
    + assert (P3 : a_at a <= T) by (apply P1; reflexivity).
      specialize (IH s (s + pongWait) (if buf then net else s) (a_at a) done O2 W2 P2).
      destruct (listen s (s + pongWait) (if buf then net else s) l) as [rd e]. cbn [snd] in *. unfold pongWait in IH. lia.
    + specialize (IH (s + w) dl (if buf then net else s) (a_at a) (done + w) O2 W2 P2).
      destruct (listen (s + w) dl (if buf then net else s) l) as [rd e]. cbn [snd] in *. lia.
    + specialize (IH s dl (if buf then net else s) (a_at a) done O2 W2 P2).
      destruct (listen s dl (if buf then net else s) l) as [rd e]. cbn [snd] in *. lia.
    + cbn [snd]. lia.
Qed.
Theorem C224_silence : forall T l, 0 <= T -> in_order 0 l -> works l ->
  (forall a, In a l -> a_frame a = Pong -> a_at a <= T) ->
  snd (connection l) <= T + 60000 + total_work l.
Proof.
  intros T l HT O W P. unfold connection.
  pose proof (silence_inv T l 0 pongWait 0 0 0 O W) as H. unfold pongWait in *.
  assert (FP : Forall (fun a => a_frame a = Pong -> a_at a <= T) l) by (apply Forall_forall; exact P).
  specialize (H FP). lia.
Qed.
Print Assumptions C224_silence.

(* A server that answers: the k-th pong comes within d of the k-th ping, and nothing arrives that is later than the answer due *)
Fixpoint answering (d k : Z) (l : list arrival) : Prop :=
  match l with
  | [] => True
  | a :: r => a_at a <= 54000 * k + d /\
      match a_frame a with Pong => 54000 * k <= a_at a /\ answering d (k + 1) r | Bad => False | _ => answering d k r end
  end.
(* the turn of every frame comes within b of its arrival *)
Fixpoint prompt (b free : Z) (l : list arrival) : Prop :=
  match l with [] => True | a :: r => Z.max free (a_at a) <= a_at a + b /\ prompt b (Z.max free (a_at a) + work_of (a_frame a)) r end.
Definition pongs (l : list arrival) : Z := Z.of_nat (length (filter (fun a => match a_frame a with Pong => true | _ => false end) l)).

(* the pings are sent at these times *)
Theorem C224_pings : forall k, ping_time k = 54000 * k.
Proof. intros k. reflexivity. Qed.
Print Assumptions C224_pings.

Lemma answered_inv b d l : b + d < 6000 -> works l -> forall free dl net k,
  answering d k l -> prompt b free l -> net <= free -> 54000 * k + 6000 <= dl ->
  map snd (fst (listen free dl net l)) = map a_frame l /\ 54000 * (k + pongs l) + 6000 <= snd (listen free dl net l).
Proof.
  intros Hb W. induction W as [|a l W1 W IH]; intros free dl net k A P N D.
  - split; [reflexivity|]. unfold pongs. cbn [filter length listen snd Z.of_nat]. lia.
  - cbn [answering] in A. destruct A as [A1 A2]. cbn [prompt] in P. destruct P as [P1 P2].
    cbn [listen].
    set (buf := a_with a && (a_at a <=? net)).
    assert (B : buf = true -> a_at a <= free).
    { unfold buf. rewrite Bool.andb_true_iff, Z.leb_le. lia. }
    set (s := if buf then free else Z.max free (a_at a)).
    assert (S0 : s = Z.max free (a_at a)).
    { unfold s. destruct buf; [specialize (B eq_refl); lia|reflexivity]. }
    clearbody s buf.
    assert (L : s <? dl = true) by (apply Z.ltb_lt; lia).
    rewrite L, Bool.orb_true_r. rewrite <- S0 in P2.
    assert (PA : pongs (a :: l) = match a_frame a with Pong => 1 | _ => 0 end + pongs l).
    { unfold pongs. cbn [filter]. destruct (a_frame a); cbn [length]; lia. }
    rewrite PA. clear PA. cbn [map].
    assert (NB : (if buf then net else s) <= s) by (destruct buf; lia).
    destruct (a_frame a) as [|w| |]; cbn [work_of] in *.
    + destruct A2 as [A2 A3]. rewrite Z.add_0_r in P2.
      specialize (IH s (s + pongWait) (if buf then net else s) (k + 1) A3 P2 NB).
      destruct (listen s (s + pongWait) (if buf then net else s) l) as [rd e]. cbn [fst snd map] in *.
      unfold pongWait in IH. destruct IH as [I1 I2]; [lia|]. split; [rewrite I1; reflexivity|lia].
    + specialize (IH (s + w) dl (if buf then net else s) k A2 P2).
      destruct (listen (s + w) dl (if buf then net else s) l) as [rd e]. cbn [fst snd map] in *.
      destruct IH as [I1 I2]; [lia..|]. split; [rewrite I1; reflexivity|lia].
    + rewrite Z.add_0_r in P2. specialize (IH s dl (if buf then net else s) k A2 P2 NB).
      destruct (listen s dl (if buf then net else s) l) as [rd e]. cbn [fst snd map] in *.
      destruct IH as [I1 I2]; [lia..|]. split; [rewrite I1; reflexivity|lia].
    + destruct A2.
Qed.
(* If the pongs come soon enough and messages do not wait long, every frame is read, and the connection is kept until the
   answer to the next ping is six seconds late. *)
Theorem C224_kept_partial : forall b d l, b + d < 6000 -> works l -> answering d 1 l -> prompt b 0 l ->
  map snd (fst (connection l)) = map a_frame l /\ 54000 * (pongs l + 1) + 6000 <= snd (connection l).
Proof.
  intros b d l Hb W A P. unfold connection.
  destruct (answered_inv b d l Hb W 0 pongWait 0 1 A P) as [H1 H2]; [lia|unfold pongWait; lia|].
  split; [exact H1|lia].
Qed.
Print Assumptions C224_kept_partial.

(* Messages that are handled for a minute after the last pong was read end the connection, however the server answers: what
   arrives and was not had with an earlier read is not read any more. *)
Lemma busy_inv waiting rest : Forall (fun a => exists w, a_frame a = Request w /\ a_at a = 0 /\ a_with a = false /\ 0 <= w) waiting ->
  Forall (fun a => a_with a = false) rest -> forall free dl net, 0 <= net <= free -> dl <= free + total_work waiting ->
  (length (fst (listen free dl net (waiting ++ rest))) <= length waiting)%nat /\
  snd (listen free dl net (waiting ++ rest)) <= Z.max (free + total_work waiting) dl.
Proof.
  intros F R. assert (ST : forall free dl net, dl <= free -> listen free dl net rest = ([], free)).
  { intros free dl net H. destruct R as [|a r Ra _]; [cbn [listen]; f_equal; lia|]. cbn [listen]. rewrite Ra.
    cbn [andb orb]. replace (Z.max free (a_at a) <? dl) with false by (symmetry; apply Z.ltb_ge; lia). f_equal. lia. }
  induction F as [|a l (w & Fa & Aa & Ba & Hw) F IH]; intros free dl net N D.
  - cbn [app length total_work fold_right] in *. rewrite ST by lia. cbn [fst snd length]. lia.
  - change (total_work (a :: l)) with (work_of (a_frame a) + total_work l) in *. rewrite Fa in *. cbn [work_of] in *.
    change ((a :: l) ++ rest) with (a :: (l ++ rest)). cbn [listen]. rewrite Ba, Fa, Aa. cbn [andb orb].
    assert (TW : 0 <= total_work l).
    { clear -F. induction F as [|b l (w & Fb & _ & _ & H) F IH]; cbn [total_work fold_right]; [lia|]. fold (total_work l). rewrite Fb. cbn [work_of]. lia. }
    replace (Z.max free 0) with free by lia.
    destruct (free <? dl) eqn:L; [|apply Z.ltb_ge in L; cbn [fst snd length]; split; lia].
    apply Z.ltb_lt in L. specialize (IH (free + w) dl free).
    destruct (listen (free + w) dl free (l ++ rest)) as [rd e]. cbn [fst snd length] in *.
    destruct IH as [I1 I2]; [lia|lia|]. split; lia.
Qed.
Theorem C224_busy : forall waiting rest,
  Forall (fun a => exists w, a_frame a = Request w /\ a_at a = 0 /\ a_with a = false /\ 0 <= w) waiting ->
  Forall (fun a => a_with a = false) rest -> 60000 <= total_work waiting ->
  (length (fst (connection (waiting ++ rest))) <= length waiting)%nat /\
  snd (connection (waiting ++ rest)) <= total_work waiting.
Proof.
  intros waiting rest F R H. unfold connection.
  destruct (busy_inv waiting rest F R 0 pongWait 0) as [H1 H2]; [lia|unfold pongWait; lia|].
  split; [exact H1|]. unfold pongWait in *. lia.
Qed.
Print Assumptions C224_busy.

(* So a server that answers every ping at once, and sends messages handled within a second each, is given up. *)
Definition backlog : list arrival := repeat (mkArr 0 (Request 1000) false) 70 ++ [mkArr 54000 Pong false; mkArr 60500 (Request 10) false].
Theorem C224_kept_refuted : exists l, in_order 0 l /\ works l /\ answering 0 1 l /\
  Forall (fun a => work_of (a_frame a) <= 1000) l /\
  map snd (fst (connection l)) <> map a_frame l /\ snd (connection l) = 60000.
Proof.
  exists backlog. unfold backlog.
  split; [cbn [repeat app in_order a_at]; intuition lia|].
  split; [cbn [repeat app]; unfold works; repeat constructor; cbn [a_frame work_of]; lia|].
  split; [cbn [repeat app answering a_at a_frame]; intuition lia|].
  split; [cbn [repeat app]; repeat constructor; cbn [a_frame work_of]; lia|].
  split; [|vm_compute; reflexivity].
  intros E. apply (f_equal (@length frame)) in E. vm_compute in E. lia.
Qed.
Print Assumptions C224_kept_refuted.

(* Whatever is read is what arrived, in order and no earlier than it arrived; nothing is read twice. *)
Lemma read_inv l : works l -> forall dl free net, net <= free -> exists n,
  map snd (fst (listen free dl net l)) = map a_frame (firstn n l) /\
  Forall2 (fun r a => a_at a <= fst r) (fst (listen free dl net l)) (firstn n l).
Proof.
  intros W.
  induction W as [|a l W1 W IH]; intros dl free net N.
  - exists O. split; [reflexivity|constructor].
  - cbn [listen]. set (buf := a_with a && (a_at a <=? net)).
    assert (B : buf = true -> a_at a <= free). { unfold buf. rewrite Bool.andb_true_iff, Z.leb_le. lia. }
    set (s := if buf then free else Z.max free (a_at a)).
    assert (S0 : s = Z.max free (a_at a)). { unfold s. destruct buf; [specialize (B eq_refl); lia|reflexivity]. }
    clearbody s buf.
    assert (NB : (if buf then net else s) <= s) by (destruct buf; lia).
    destruct (buf || (s <? dl)); [|exists O; split; [reflexivity|constructor]].
    destruct (a_frame a) as [|w| |] eqn:Ef; cbn [work_of] in W1.
    1: specialize (IH (s + pongWait) s (if buf then net else s) NB); destruct (listen s (s + pongWait) (if buf then net else s) l) as [rd e].
    2: specialize (IH dl (s + w) (if buf then net else s)); destruct (listen (s + w) dl (if buf then net else s) l) as [rd e]; specialize (IH ltac:(lia)).
    3: specialize (IH dl s (if buf then net else s) NB); destruct (listen s dl (if buf then net else s) l) as [rd e].
    1-3: destruct IH as (n & I1 & I2); exists (S n); cbn [firstn map fst snd] in *; rewrite I1, Ef;
      split; [reflexivity|constructor; [cbn [fst]; lia|exact I2]].
    exists 1%nat. cbn [firstn map fst snd]. rewrite Ef. split; [reflexivity|]. constructor; [cbn [fst]; lia|constructor].
Qed.
Theorem C224_read : forall l, works l -> exists n,
  map snd (fst (connection l)) = map a_frame (firstn n l) /\
  Forall2 (fun r a => a_at a <= fst r) (fst (connection l)) (firstn n l).
Proof. intros l W. apply (read_inv l W pongWait 0 0). lia. Qed.
Print Assumptions C224_read.

Example C224_example :
  let l := [mkArr 100 (Request 800) false; mkArr 200 (Request 300) true; mkArr 53900 (Request 2000) false; mkArr 54050 Pong true;
            mkArr 90000 Control false; mkArr 108500 Pong false] in
  in_order 0 l /\ works l /\ answering 1000 1 l /\ prompt 4000 0 l /\
  connection l = ([(100, Request 800); (900, Request 300); (53900, Request 2000); (55900, Pong); (90000, Control); (108500, Pong)], 168500) /\
  (* without the second pong the connection is given up a minute after the first *)
  snd (connection (firstn 5 l)) = 115900 /\
  (* a message that takes 61 seconds *)
  connection [mkArr 1000 (Request 61000) false; mkArr 54000 Pong false] = ([(1000, Request 61000)], 62000).
Proof.
  cbn zeta. split; [cbn [in_order a_at]; lia|]. split; [unfold works; repeat constructor; cbn [a_frame work_of]; lia|].
  split; [cbn [answering a_at a_frame]; lia|]. split; [cbn [prompt a_at a_frame work_of]; lia|].
  split; [vm_compute; reflexivity|]. split; vm_compute; reflexivity.
Qed.
