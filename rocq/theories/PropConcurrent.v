(* C161, C162, C163, C164: several goroutines on one device's stores *)
From Coq Require Import ZArith List Lia Bool.
From Verif Require Import Bytes Res Wire Crypto Cbc Messages Session Builder History Conversation Examples
  PropHistory Concurrent ConcurrentProofs.
Import ListNotations.
Open Scope Z_scope.

(* ------------------------------------------------------------------------------------------ *)
(* C161. Encrypting and decrypting from any number of goroutines, interleaved in any way access by access
   with each other and with reads of registration numbers: the calls that have returned gave exactly what
   they would have given one after another, in the order of p_log; the calls of each goroutine appear there
   in the order in which it makes them, none left out; and what is stored, at any moment, is what that
   sequence leaves, or what it leaves with the next call of one goroutine cut off after some of its
   writes - so that a crash of a concurrent run is a crash of a sequential one. *)
Theorem C161_one_after_another : forall C w threads sched,
  (forall i, Forall calm (threads i)) ->
  let s := prun C (pinit w threads) sched in
  let order := map e_call (p_log s) in
  map e_res (p_log s) = seq_results C w order /\
  (forall i, exists rest, ciphers (threads i) = logged i (p_log s) ++ rest /\
     (p_thr s i = Ready [] -> rest = [])) /\
  (m_w (p_mem s) = after C w order \/
   exists i c rest k, ciphers (threads i) = logged i (p_log s) ++ c :: rest /\
     m_w (p_mem s) = fst (history C w (map Done order ++ [Crash c k]))) /\
  ((forall i, p_thr s i = Ready []) -> m_w (p_mem s) = after C w order /\ m_torn (p_mem s) = []).
Proof.
  intros C w threads sched H s order.
  pose proof (inv_run C w threads sched _ (inv_init C w threads H)) as I0. fold s in I0.
  destruct I0 as [R K CA F L]. split; [exact R|]. split; [|split].
  - intros i. exists (rest_of (p_thr s i)). split; [apply K|]. intros ->. reflexivity.
  - destruct (p_lock s) as [h|].
    + right. destruct L as [(c & p & t & E & A) _]. destruct (at_world _ _ _ _ _ A) as (k & X).
      exists h, c, (ciphers t), k. split; [rewrite K, E; reflexivity|]. rewrite X, history_app.
      cbn [fst history estep]. unfold after, order.
      destruct (perform_call C (fst (history C w (map Done (map e_call (p_log s))))) c) as [[ok out] l]. reflexivity.
    + left. destruct L as [_ M]. now rewrite M.
  - intros D. destruct (p_lock s) as [h|].
    + destruct L as [(c & p & t & E & _) _]. rewrite D in E. discriminate E.
    + destruct L as [_ M]. rewrite M. split; reflexivity.
Qed.

(* Nobody waits for ever: whatever the goroutines are to do (building of sessions included), and however
   far they have come, there is a way to go on in which all of the first n finish - unless the process
   ends. In particular the mutex is never held by nobody, and never waited for by its holder. *)
Theorem C161_no_deadlock : forall C w threads n sched,
  exists more, let s := prun C (pinit w threads) (sched ++ more) in
  p_dead s = true \/ (p_dead s = false /\ forall i, (i < n)%nat -> p_thr s i = Ready []).
Proof.
  intros. destruct (finish_all C n (prun C (pinit w threads) sched) (linv_run C sched _ (linv_init w threads))) as (b & H).
  exists b. now rewrite prun_app.
Qed.
Print Assumptions C161_one_after_another.
Print Assumptions C161_no_deadlock.

(* B has received A's first message; one goroutine answers twice, the listener receives two more *)
Definition w_talking : world := fst (history toy ex_worldB [Done (from_A 0 100)]).
Definition ex_two (i : nat) : list op :=
  match i with
  | 0%nat => [OCipher (CEnc na 1 [7]); OReg na 1; OCipher (CEnc na 1 [8])]
  | 1%nat => [OCipher (from_A 1 110); OCipher (from_A 2 120)]
  | _ => []
  end.
Example C161_example :
  let s := prun toy (pinit w_talking ex_two) (flat_map (fun _ => [0; 1; 1; 0; 1]%nat) (seq 0 20)) in
  (forall i, Forall calm (ex_two i)) /\ map e_who (p_log s) = [0; 1; 1; 0]%nat /\
  map (fun e => fst (e_res e)) (p_log s) = [true; true; true; true] /\
  map (fun e => length (snd (e_res e))) (p_log s) = [1; 0; 0; 1]%nat /\ p_dead s = false.
Proof.
  split; [|vm_compute; repeat split; reflexivity].
  intros [|[|i]]; repeat constructor.
Qed.

(* ------------------------------------------------------------------------------------------ *)
(* C162. Many goroutines sending in a session that exists: whatever the interleaving, and wherever it is
   stopped, no two of the messages handed out for a device are at the same position of the same chain. *)
Definition sends_only (o : op) : Prop :=
  match o with OCipher (CEnc _ _ pt) => zlen pt < 2 ^ 60 | OReg _ _ => True | _ => False end.
Definition handed_out (s : pstate) : list sent := concat (map (fun e => snd (e_res e)) (p_log s)).

Theorem C162_positions_distinct : forall C, crypto_ok C -> forall rid dev w s0 p0 rk i threads sched,
  w_sess w rid dev = Some (s0, p0) -> sending_state s0 rk i -> 0 <= w_reg w < 2 ^ 32 ->
  (forall j, Forall sends_only (threads j)) ->
  let s := prun C (pinit w threads) sched in
  i + Z.of_nat (length (p_log s)) < 2 ^ 32 ->
  exists ps, map (fun x => position (se_type x) (se_bytes x))
               (filter (fun x => beq (se_rid x) rid && (se_dev x =? dev)) (handed_out s))
             = map Some ps /\ NoDup ps /\ forall j, 0 <= j < i -> ~ In (rk, j) ps.
Proof.
  intros C OK rid dev w s0 p0 rk i threads sched HS SS HR HT s HL.
  assert (CA : forall j, Forall calm (threads j)).
  { intros j. eapply Forall_impl; [|apply HT]. intros o Ho. destruct o as [c| |]; try exact Logic.I; try destruct Ho.
    destruct c; try destruct Ho; exact Logic.I. }
  destruct (C161_one_after_another C w threads sched CA) as (R & K & _ & _).
  fold s in R, K. unfold handed_out. rewrite <- (map_map e_res snd), R, seq_outs.
  apply (C09_crash_while_sending C OK rid dev w s0 p0 rk i); auto.
  - unfold only_sends. rewrite Forall_forall. intros e He. apply in_map_iff in He. destruct He as (c & <- & Hc).
    apply in_map_iff in Hc. destruct Hc as (en & <- & He). cbn [ecall].
    destruct (K (e_who en)) as (rest & E & _).
    assert (X : In (e_call en) (ciphers (threads (e_who en)))).
    { rewrite E. apply in_or_app. left. unfold logged. apply in_map. apply filter_In. split; auto. apply Nat.eqb_refl. }
    unfold ciphers in X. apply in_flat_map in X. destruct X as (o & Ho & X).
    pose proof (proj1 (Forall_forall _ _) (HT (e_who en)) o Ho) as S.
    destruct o as [c| |]; [|destruct X|destruct X]. destruct X as [<-|[]].
    destruct c as [r d pt| |]; [|destruct S|destruct S]. exists r, d, pt. split; [reflexivity|exact S].
  - rewrite !map_length. exact HL.
Qed.
Print Assumptions C162_positions_distinct.

(* three goroutines, four messages *)
Definition ex_three (i : nat) : list op :=
  match i with
  | 0%nat => [OCipher (CEnc nb 1 [7]); OReg nb 1; OCipher (CEnc nb 1 [8])]
  | 1%nat => [OCipher (CEnc nb 1 [9])]
  | 2%nat => [OCipher (CEnc nb 1 [10]); OReg nb 1]
  | _ => []
  end.
Example C162_example :
  let s := prun toy (pinit w_sending ex_three) (flat_map (fun _ => [2; 0; 1; 0; 1; 2]%nat) (seq 0 20)) in
  (exists s0 p0 rk, w_sess w_sending nb 1 = Some (s0, p0) /\ sending_state s0 rk 1) /\
  (forall j, Forall sends_only (ex_three j)) /\
  map e_who (p_log s) = [2; 0; 1; 0]%nat /\
  map (fun x => option_map snd (position (se_type x) (se_bytes x))) (handed_out s) = [Some 1; Some 2; Some 3; Some 4].
Proof.
  split; [|split; [|vm_compute; split; reflexivity]].
  - destruct C09_example as (s0 & p0 & rk & H1 & H2 & _). exists s0, p0, rk. split; [exact H1|exact H2].
  - intros [|[|[|j]]]; repeat constructor.
Qed.

(* ------------------------------------------------------------------------------------------ *)
(* C163. Full statement: what becomes of the messages of a peer does not depend on whether the application
   sends to that peer at the same time. It is false for a first message, because building a session is not
   done under the mutex: B starts to send to A and finds no session; before B stores the one it builds, the
   listener receives A's first message, stores the session it opens and removes the one-time key; B's
   session then replaces it. A's second message, accepted in every order in which the calls do not
   overlap, is refused, since its session is gone and so is the key to build it again. *)
Definition bundleA : bundle :=
  mkBundle 1001 1 0 None 1 (Some (snd (ex_kp 44)))
    (ex_sign (snd (ex_kp 11)) (key_ser (snd (ex_kp 44)))) (snd (ex_kp 11)).
Definition ex_first_op : op := OFirst na 1 bundleA (rb 60) (rb 61).
Definition ex_cross (i : nat) : list op :=
  match i with
  | 0%nat => send_ops na 1 bundleA (rb 60) (rb 61) [9]
  | 1%nat => [OCipher (from_A 0 100); OCipher (from_A 1 110)]
  | _ => []
  end.
Definition results_of (i : nat) (s : pstate) : list bool :=
  map (fun e => fst (e_res e)) (filter (fun e => Nat.eqb (e_who e) i) (p_log s)).
Definition all_done (s : pstate) : Prop := p_dead s = false /\ forall i, p_thr s i = Ready [].

Definition before_listener : list nat := repeat 0%nat 40 ++ repeat 1%nat 40.
Definition after_listener : list nat := repeat 1%nat 40 ++ repeat 0%nat 40.
Definition between : list nat := repeat 1%nat 11 ++ repeat 0%nat 40 ++ repeat 1%nat 40.
Definition crossing : list nat := repeat 0%nat 5 ++ repeat 1%nat 11 ++ repeat 0%nat 40 ++ repeat 1%nat 40.

Lemma others_done : forall sched s, (forall i, (2 <= i)%nat -> p_thr s i = Ready []) ->
  forall i, (2 <= i)%nat -> p_thr (prun toy s sched) i = Ready [].
Proof.
  induction sched as [|j sched IH]; intros s H i Hi; auto.
  change (p_thr (prun toy (pstep toy s j) sched) i = Ready []). apply IH; auto.
  intros k Hk. unfold pstep. destruct (p_dead s); auto.
  destruct (Nat.eq_dec j k) as [->|N].
  - rewrite (H k Hk). apply H. exact Hk.
  - assert (X : forall m l t g d, p_thr (mkP m l (set_thr (p_thr s) j t) g d) k = Ready []).
    { intros. cbn [p_thr]. rewrite set_other by auto. auto. }
    destruct (p_thr s j) as [[|[c| |] t]|c p t|o p t].
    + now apply H.
    + destruct (p_lock s); [now apply H|apply X].
    + apply X.
    + apply X.
    + destruct p as [[ok out|]| | |]; try apply X. now apply H.
    + destruct p as [[ok out|]| | |]; try apply X. now apply H.
Qed.

Theorem C163_crossing_refuted : exists C w threads s1 s2 s3 bad,
  crypto_ok C /\ (forall rid dev, w_sess w rid dev = None) /\
  (* what goroutine 0 does is sending one message, goroutine 1 receives two *)
  (exists rid dev b r1 r2 pt, threads 0%nat = send_ops rid dev b r1 r2 pt /\
     Forall (fun o => exists ty m rnd, o = OCipher (CRecv rid dev ty m rnd)) (threads 1%nat)) /\
  let run := prun C (pinit w threads) in
  (* one after the other, in each of the three orders *)
  results_of 1 (run s1) = [true; true] /\ results_of 1 (run s2) = [true; true] /\
  results_of 1 (run s3) = [true; true] /\
  (* overlapping *)
  all_done (run bad) /\ results_of 1 (run bad) = [true; false] /\ results_of 0 (run bad) = [true].
Proof.
  exists toy, ex_worldB, ex_cross, before_listener, after_listener, between, crossing.
  split; [exact toy_ok|]. split; [reflexivity|]. split.
  { exists na, 1, bundleA, (rb 60), (rb 61), [9]. split; [reflexivity|].
    repeat constructor; do 3 eexists; reflexivity. }
  split; [vm_compute; reflexivity|]. split; [vm_compute; reflexivity|]. split; [vm_compute; reflexivity|].
  split; [|split; vm_compute; reflexivity].
  split; [vm_compute; reflexivity|]. intros [|[|i]].
  - vm_compute. reflexivity.
  - vm_compute. reflexivity.
  - apply others_done; [|lia]. intros [|[|j]] Hj; try lia. reflexivity.
Qed.
Print Assumptions C163_crossing_refuted.

(* ------------------------------------------------------------------------------------------ *)
(* C164. Full statement: sending while the listener receives does not end the process. It is false: after
   encrypting, sending reads the session file once more for the registration number of the peer, without
   the mutex; if the listener has just truncated that file to store it anew, the read panics. The process
   ends and leaves the file empty, that is the session is lost as well (C29, C63). *)
Definition ex_reg (i : nat) : list op :=
  match i with
  | 0%nat => [OCipher (CEnc na 1 [7]); OReg na 1]
  | 1%nat => [OCipher (from_A 1 110)]
  | _ => []
  end.
Theorem C164_sending_ends_the_process_refuted : exists C w threads sched rid dev,
  crypto_ok C /\ (forall i, Forall calm (threads i)) /\
  (exists b r1 r2 pt, skipn 1 (send_ops rid dev b r1 r2 pt) = threads 0%nat) /\
  let s := prun C (pinit w threads) sched in
  p_dead s = true /\ results_of 0 s = [true] /\ m_torn (p_mem s) = [(rid, dev)].
Proof.
  exists toy, w_talking, ex_reg, (repeat 0%nat 9 ++ repeat 1%nat 8 ++ repeat 0%nat 3), na, 1.
  split; [exact toy_ok|]. split; [intros [|[|i]]; repeat constructor|].
  split; [exists bundleA, (rb 60), (rb 61), [7]; reflexivity|].
  vm_compute. repeat split; reflexivity.
Qed.

(* Where nothing is read without the mutex, it cannot happen; nor with a single goroutine. *)
Theorem C164_under_the_mutex : forall C w threads sched,
  (forall i, Forall calm (threads i)) -> (forall i, Forall no_reg (threads i)) ->
  p_dead (prun C (pinit w threads) sched) = false.
Proof.
  intros C w threads sched H N. apply (quiet_run C w threads); [now apply inv_init| |reflexivity].
  intros j. split; [apply N|exact Logic.I].
Qed.

Definition alone (s : pstate) : Prop :=
  p_dead s = false /\ (forall o t, p_thr s 0%nat <> Free o (PEnd Died) t) /\
  forall i, i <> 0%nat -> p_thr s i = Ready [].
Theorem C164_single : forall C w threads sched,
  (forall i, Forall calm (threads i)) -> (forall i, i <> 0%nat -> threads i = []) ->
  p_dead (prun C (pinit w threads) sched) = false.
Proof.
  intros C w threads sched CA ON.
  enough (X : forall sched s, inv C w threads s -> alone s -> alone (prun C s sched)).
  { apply (X sched (pinit w threads)); [now apply inv_init|]. split; [reflexivity|]. split; [intros o t; discriminate|].
    intros i Hi. cbn [pinit p_thr]. now rewrite ON. }
  clear sched. induction sched as [|i sched IH]; intros s I0 (D & ND & O); [split; [|split]; assumption|].
  change (alone (prun C (pstep C s i) sched)). apply IH; [now apply inv_step|].
  destruct (Nat.eq_dec i 0) as [->|N].
  2:{ unfold pstep. rewrite D, (O i N). split; [|split]; assumption. }
  assert (X : forall m l t g, (forall o t', t <> Free o (PEnd Died) t') -> alone (mkP m l (set_thr (p_thr s) 0 t) g false)).
  { intros m l t g Ht. split; [reflexivity|]. cbn [p_thr]. split; [intros o t'; rewrite set_same; apply Ht|].
    intros j N. rewrite set_other by auto. auto. }
  assert (SM : alone s) by (split; [|split]; assumption).
  unfold pstep. rewrite D. destruct (p_thr s 0%nat) as [[|o t]|c p t|o p t] eqn:E; try exact SM.
  - destruct o as [c|rid dev|rid dev b r1 r2].
    + destruct (p_lock s); [exact SM|]. apply X. intros; discriminate.
    + apply X. intros; discriminate.
    + apply X. intros; discriminate.
  - destruct (holder _ _ _ _ _ _ _ _ I0 E) as (LK & A & _). pose proof (at_step _ _ _ _ _ A) as S.
    destruct p as [[ok out|]|k|rid dev k|e k]; [|destruct S| | |]; apply X; intros; discriminate.
  - pose proof (i_free _ _ _ _ I0 0%nat) as F. rewrite E in F. destruct F as (rid & dev & -> & F).
    destruct F as [->|(r & ->)].
    + cbn [free_body]. apply X. intros o t'.
      assert (M : p_mem s = mkMem (after C w (map e_call (p_log s))) []).
      { destruct I0 as [R K CA' F L]. destruct (p_lock s) as [h|].
        - destruct L as [(c & p & t0 & E' & _) _]. destruct (Nat.eq_dec h 0) as [->|N]; [rewrite E in E'|rewrite (O h N) in E']; discriminate E'.
        - apply L. }
      rewrite M. cbn [is_torn m_torn existsb]. discriminate.
    + destruct r as [ok out|].
      * apply X. intros; discriminate.
      * destruct (ND (OReg rid dev) t). reflexivity.
Qed.
Print Assumptions C164_sending_ends_the_process_refuted.
Print Assumptions C164_under_the_mutex.
Print Assumptions C164_single.

(* the listener and a goroutine that only encrypts: all goes well, however they are interleaved *)
Definition ex_noreg (i : nat) : list op :=
  match i with
  | 0%nat => [OCipher (CEnc na 1 [7]); OCipher (CEnc na 1 [8])]
  | 1%nat => [OCipher (from_A 1 110)]
  | _ => []
  end.
Example C164_example : (forall i, Forall calm (ex_noreg i)) /\ (forall i, Forall no_reg (ex_noreg i)) /\
  map e_who (p_log (prun toy (pinit w_talking ex_noreg) (repeat 0%nat 9 ++ repeat 1%nat 12 ++ repeat 0%nat 12)))
  = [0; 1; 0]%nat.
Proof. split; [intros [|[|i]]; repeat constructor|]. split; [intros [|[|i]]; repeat constructor|]. vm_compute. reflexivity. Qed.
