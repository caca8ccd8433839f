(* C163 and C164 for goroutines that have to do with different peers. *)
From Coq Require Import ZArith List Lia Bool.
From Verif Require Import Bytes Res Wire Crypto Cbc Messages Session Builder History Conversation Examples
  PropHistory Concurrent ConcurrentProofs PropConcurrent Apart.
Import ListNotations.
Open Scope Z_scope.

(* ------------------------------------------------------------------------------------------ *)
(* C163, C164. Any number of goroutines that encrypt, decrypt, read registration numbers and build sessions, the latter
   without the mutex, interleaved in any way access by access. If no two of them have to do with the same peer, and one of
   them (the listener) is the one that receives first messages, then the process does not end, and each goroutine is given
   exactly what its operations give one after another when there is nobody else; and what is stored about its peers is what
   they leave, with the operation it is at cut off after some of its writes. *)
Theorem C163_apart : forall C w threads own listener sched,
  (forall i o, In o (threads i) -> own (about o) = i) ->
  (forall i o, In o (threads i) -> opens o -> i = listener) ->
  let s := prun C (pinit w threads) sched in
  p_dead s = false /\
  forall i, exists done todo k, threads i = done ++ todo /\ given i s = seq_log C w done /\
    (forall l, p_thr s i = Ready l -> l = todo /\ k = 0%nat) /\
    let left := match todo with
                | [] => seq_ops C w done
                | o :: _ => apply_effs (seq_ops C w done) (firstn k (snd (op_do C (seq_ops C w done) o)))
                end in
    forall rid, own rid = i -> w_ids (m_w (p_mem s)) rid = w_ids left rid /\
      forall dev, w_sess (m_w (p_mem s)) rid dev = w_sess left rid dev.
Proof.
  intros C w threads own lst sched H1 H2 s.
  destruct (ainv_run C own lst w threads (fun i o Ho => conj (H1 i o Ho) (H2 i o Ho)) sched _ (ainv_init C own lst w threads)) as [D H].
  fold s in D, H. split; [exact D|]. intros i. destruct (H i) as (dn & todo & E1 & E2 & E3).
  assert (X : forall W, wagree own lst i (m_w (p_mem s)) W -> forall rid, own rid = i -> w_ids (m_w (p_mem s)) rid = w_ids W rid /\
      forall dev, w_sess (m_w (p_mem s)) rid dev = w_sess W rid dev).
  { intros W (A1 & A2 & _) rid O. split; [now apply A2|intros dev; now apply A1]. }
  assert (Y : forall o p, within_op C own lst i (seq_ops C w dn) o p (p_mem s) -> exists k,
      wagree own lst i (m_w (p_mem s)) (apply_effs (seq_ops C w dn) (firstn k (snd (op_do C (seq_ops C w dn) o))))).
  { intros o p (l1 & l & A & B & _). exists (length l1). rewrite A, firstn_app, Nat.sub_diag, firstn_all. cbn [firstn].
    rewrite app_nil_r. exact B. }
  destruct (p_thr s i) as [l|c p l|o p l].
  - destruct E3 as (-> & A & Q). exists dn, todo, 0%nat. split; [exact E1|]. split; [exact E2|].
    split; [intros l E; injection E as <-; auto|]. cbv zeta. destruct todo; cbn [firstn]; [now apply X|]. now apply X.
  - destruct E3 as (-> & A). destruct (Y _ _ A) as (k & B). exists dn, (OCipher c :: l), k. split; [exact E1|]. split; [exact E2|].
    split; [intros l0 E; discriminate E|]. now apply X.
  - destruct E3 as (-> & N & A). destruct (Y _ _ A) as (k & B). exists dn, (o :: l), k. split; [exact E1|]. split; [exact E2|].
    split; [intros l0 E; discriminate E|]. now apply X.
Qed.
Print Assumptions C163_apart.

(* A goroutine that has come to its end has what it would have by itself. *)
Theorem C163_apart_at_the_end : forall C w threads own listener sched i,
  (forall i o, In o (threads i) -> own (about o) = i) ->
  (forall i o, In o (threads i) -> opens o -> i = listener) ->
  let s := prun C (pinit w threads) sched in
  p_thr s i = Ready [] ->
  given i s = seq_log C w (threads i) /\
  forall rid dev, own rid = i -> w_sess (m_w (p_mem s)) rid dev = w_sess (seq_ops C w (threads i)) rid dev.
Proof.
  intros C w threads own lst sched i H1 H2 s E.
  destruct (proj2 (C163_apart C w threads own lst sched H1 H2) i) as (dn & todo & k & A1 & A2 & A3 & A4). fold s in A2, A3, A4.
  destruct (A3 [] E) as [<- ->]. rewrite app_nil_r in A1. subst dn. split; [exact A2|]. intros rid dev O. now apply A4.
Qed.
Print Assumptions C163_apart_at_the_end.
Theorem C164_apart : forall C w threads own listener sched,
  (forall i o, In o (threads i) -> own (about o) = i) ->
  (forall i o, In o (threads i) -> opens o -> i = listener) ->
  p_dead (prun C (pinit w threads) sched) = false.
Proof. intros C w threads own lst sched H1 H2. apply (C163_apart C w threads own lst sched H1 H2). Qed.
Print Assumptions C164_apart.

(* An operation ends the process exactly if the file of its peer and device is the one that is truncated when it is read. *)
Lemma torn_in m rid dev : is_torn m rid dev = true <-> In (rid, dev) (m_torn m).
Proof.
  unfold is_torn. rewrite existsb_exists. split.
  - intros ([r d] & H & E). cbn [fst snd] in E. apply andb_prop in E. destruct E as [E1 E2]. apply beq_eq in E1. apply Z.eqb_eq in E2. now subst.
  - intros H. exists (rid, dev). split; [exact H|]. cbn [fst snd]. now rewrite beq_refl, Z.eqb_refl.
Qed.
Lemma writes_alive l ok out : writes l (Returned ok out) <> PEnd Died.
Proof. destruct l as [|[rid dev a b|id|rid k] l]; cbn [writes]; discriminate. Qed.
Theorem C164_when : forall C,
  (forall rid dev m, exists k, free_body C (OReg rid dev) = PRead k /\ (k m = PEnd Died <-> In (rid, dev) (m_torn m))) /\
  (forall c m1 m2 m3 m4 m5, commit C c m1 m2 m3 m4 m5 = PEnd Died <-> In (peer c) (m_torn m1)).
Proof.
  intros C. split.
  - intros rid dev m. eexists. split; [reflexivity|]. cbv beta. rewrite <- torn_in.
    destruct (is_torn m rid dev); split; intros H; first [reflexivity|discriminate H].
  - intros c m1 m2 m3 m4 m5. rewrite (surjective_pairing (peer c)), <- torn_in. unfold commit.
    destruct (is_torn m1 (fst (peer c)) (snd (peer c))); [split; reflexivity|].
    destruct (perform_call C (pieces m1 m2 m3 m4 m5) c) as [[ok out] l]. split; intros H; [now apply writes_alive in H|discriminate H].
Qed.
Print Assumptions C164_when.

(* The overlap of C163_crossing_refuted, but B sends to somebody else than A while A's messages arrive: both are accepted,
   and the session with A is the one that the listener alone would have. *)
Definition nother : bytes := [99].
Definition ex_apart (i : nat) : list op :=
  match i with
  | 0%nat => send_ops nother 1 bundleA (rb 60) (rb 61) [9]
  | 1%nat => [OCipher (from_A 0 100); OCipher (from_A 1 110)]
  | _ => []
  end.
Definition ex_own (rid : bytes) : nat := if beq rid na then 1%nat else 0%nat.
Example C163_apart_example :
  (forall i o, In o (ex_apart i) -> ex_own (about o) = i) /\ (forall i o, In o (ex_apart i) -> opens o -> i = 1%nat) /\
  let s := prun toy (pinit ex_worldB ex_apart) crossing in
  p_thr s 0%nat = Ready [] /\ p_thr s 1%nat = Ready [] /\ results_of 1 s = [true; true] /\ results_of 0 s = [true] /\
  map (fun x => fst (snd x)) (seq_log toy ex_worldB (ex_apart 1)) = [true; true].
Proof.
  split; [|split; [|vm_compute; repeat split; reflexivity]].
  - intros [|[|i]] o H; cbn [ex_apart send_ops In] in H; [| |destruct H].
    + destruct H as [<-|[<-|[<-|[]]]]; vm_compute; reflexivity.
    + destruct H as [<-|[<-|[]]]; vm_compute; reflexivity.
  - intros [|[|i]] o H; cbn [ex_apart send_ops In] in H; [|reflexivity|destruct H].
    destruct H as [<-|[<-|[<-|[]]]]; intros [].
Qed.
