(* Proofs about the interleavings of Concurrent.v. *)
From Coq Require Import ZArith List Lia Bool.
From Verif Require Import Bytes Res Wire Crypto Cbc Messages Session Builder History Concurrent.
Import ListNotations.
Open Scope Z_scope.

(* --- the sequential counterpart: the calls of a list one after another, each to its end --- *)
Fixpoint seq_results (C : crypto) (w : world) (cs : list call) : list (bool * list sent) :=
  match cs with
  | [] => []
  | c :: t => let '(ok, out, l) := perform_call C w c in (ok, out) :: seq_results C (apply_effs w l) t
  end.
Definition after (C : crypto) (w : world) (cs : list call) : world := fst (history C w (map Done cs)).

Definition is_cipher (c : call) : Prop := match c with CBuild _ _ _ _ _ => False | _ => True end.
(* operations that are calls under the mutex, or only read *)
Definition calm (o : op) : Prop :=
  match o with OCipher c => is_cipher c | OReg _ _ => True | OFirst _ _ _ _ _ => False end.

Definition ciphers (l : list op) : list call :=
  flat_map (fun o => match o with OCipher c => [c] | _ => [] end) l.
Definition logged (i : nat) (l : list entry) : list call :=
  map e_call (filter (fun e => Nat.eqb (e_who e) i) l).
Definition rest_of (t : tstate) : list call :=
  match t with Ready l => ciphers l | Inside c _ l => c :: ciphers l | Free _ _ l => ciphers l end.
Definition todo_of (t : tstate) : list op :=
  match t with Ready l | Inside _ _ l | Free _ _ l => l end.
Definition inside (t : tstate) : Prop := match t with Inside _ _ _ => True | _ => False end.

Section P.
Variable C : crypto.

Lemma history_app : forall h1 h2 w,
  history C w (h1 ++ h2) =
  (fst (history C (fst (history C w h1)) h2), snd (history C w h1) ++ snd (history C (fst (history C w h1)) h2)).
Proof.
  induction h1 as [|e h1 IH]; intros h2 w; cbn [app history fst snd].
  - destruct (history C w h2); reflexivity.
  - destruct (estep C w e) as [w1 out]. rewrite IH. destruct (history C w1 h1) as [w2 o2].
    cbn [fst snd]. now rewrite app_assoc.
Qed.

Lemma after_app : forall cs c w, after C w (cs ++ [c]) =
  apply_effs (after C w cs) (snd (perform_call C (after C w cs) c)).
Proof.
  intros. unfold after. rewrite map_app, history_app. cbn [map history fst estep].
  destruct (perform_call C (fst (history C w (map Done cs))) c) as [[ok out] l]. reflexivity.
Qed.

Lemma seq_results_app : forall cs c w, seq_results C w (cs ++ [c]) =
  seq_results C w cs ++ [fst (perform_call C (after C w cs) c)].
Proof.
  induction cs as [|d cs IH]; intros c w.
  - cbn [app seq_results]. unfold after. cbn [map history fst].
    destruct (perform_call C w c) as [[ok out] l]. reflexivity.
  - cbn [app seq_results]. destruct (perform_call C w d) as [[ok out] l] eqn:E. rewrite IH. cbn [app].
    f_equal. f_equal. unfold after. cbn [map history estep]. rewrite E.
    destruct (history C (apply_effs w l) (map Done cs)). reflexivity.
Qed.

Lemma seq_outs : forall cs w, concat (map snd (seq_results C w cs)) = snd (history C w (map Done cs)).
Proof.
  induction cs as [|c cs IH]; intros w; cbn [seq_results map history estep concat]; auto.
  destruct (perform_call C w c) as [[ok out] l]. cbn [map snd concat]. rewrite IH.
  destruct (history C (apply_effs w l) (map Done cs)). reflexivity.
Qed.

(* --- where the holder of the mutex is --- *)
Inductive at_point (W : world) (c : call) : prog -> mem -> Prop :=
| at_read1 : at_point W c (body C c) (mkMem W [])
| at_read2 : at_point W c (PRead (fun m2 => PRead (fun m3 => PRead (fun m4 => PRead (fun m5 =>
    commit C c (mkMem W []) m2 m3 m4 m5))))) (mkMem W [])
| at_read3 : at_point W c (PRead (fun m3 => PRead (fun m4 => PRead (fun m5 =>
    commit C c (mkMem W []) (mkMem W []) m3 m4 m5)))) (mkMem W [])
| at_read4 : at_point W c (PRead (fun m4 => PRead (fun m5 =>
    commit C c (mkMem W []) (mkMem W []) (mkMem W []) m4 m5))) (mkMem W [])
| at_read5 : at_point W c (PRead (fun m5 =>
    commit C c (mkMem W []) (mkMem W []) (mkMem W []) (mkMem W []) m5)) (mkMem W [])
| at_write : forall ok out l k, perform_call C W c = (ok, out, l) ->
    at_point W c (writes (skipn k l) (Returned ok out)) (mkMem (apply_effs W (firstn k l)) [])
| at_torn : forall ok out l k rid dev a b, perform_call C W c = (ok, out, l) ->
    nth_error l k = Some (EStoreSession rid dev a b) ->
    at_point W c (PWrite (EStoreSession rid dev a b) (writes (skipn (S k) l) (Returned ok out)))
      (mkMem (apply_effs W (firstn k l)) [(rid, dev)]).

Lemma commit_here : forall W c, exists ok out l, perform_call C W c = (ok, out, l) /\
  commit C c (mkMem W []) (mkMem W []) (mkMem W []) (mkMem W []) (mkMem W []) = writes l (Returned ok out).
Proof.
  intros. unfold commit, is_torn. cbn [m_torn existsb].
  replace (pieces (mkMem W []) (mkMem W []) (mkMem W []) (mkMem W []) (mkMem W [])) with W
    by (destruct W; reflexivity).
  destruct (perform_call C W c) as [[ok out] l]. eexists _, _, _. split; reflexivity.
Qed.

Lemma skipn_nth : forall A (l : list A) k, skipn k l = match nth_error l k with Some x => x :: skipn (S k) l | None => [] end.
Proof. induction l as [|x l IH]; intros [|k]; cbn [skipn nth_error]; auto. rewrite IH. reflexivity. Qed.
Lemma firstn_nth : forall A (l : list A) k x, nth_error l k = Some x -> firstn (S k) l = firstn k l ++ [x].
Proof. induction l as [|y l IH]; intros [|k] x H; try discriminate H.
  - injection H as ->. reflexivity.
  - cbn [firstn app]. f_equal. now apply IH. Qed.
Lemma firstn_none : forall A (l : list A) k, nth_error l k = None -> firstn k l = l.
Proof. intros A l k H. apply firstn_all2. now apply nth_error_None. Qed.

Lemma untorn_self : forall rid dev, untorn rid dev [(rid, dev)] = [].
Proof. intros. unfold untorn. cbn [filter fst snd]. rewrite beq_refl, Z.eqb_refl. reflexivity. Qed.

Lemma apply_effs_app : forall w l e, apply_effs w (l ++ [e]) = apply_eff (apply_effs w l) e.
Proof. intros. unfold apply_effs. now rewrite fold_left_app. Qed.

(* one access of the holder *)
Lemma at_step : forall W c p m, at_point W c p m ->
  match p with
  | PEnd Died => False
  | PEnd (Returned ok out) => exists l, perform_call C W c = (ok, out, l) /\ m = mkMem (apply_effs W l) []
  | PRead k => at_point W c (k m) m
  | PTrunc rid dev k => at_point W c k (mkMem (m_w m) ((rid, dev) :: m_torn m))
  | PWrite e k => at_point W c k (do_write e m)
  end.
Proof.
  intros W c p m H. destruct H as [ | | | | |ok out l k E|ok out l k rid dev a b E N].
  - exact (at_read2 W c).
  - exact (at_read3 W c).
  - exact (at_read4 W c).
  - exact (at_read5 W c).
  - destruct (commit_here W c) as (ok & out & l & E & X).
    change (at_point W c (commit C c (mkMem W []) (mkMem W []) (mkMem W []) (mkMem W []) (mkMem W [])) (mkMem W [])).
    rewrite X. exact (at_write W c ok out l 0 E).
  - rewrite (skipn_nth _ l k). destruct (nth_error l k) as [e|] eqn:N.
    + assert (X : forall rid dev a b, e <> EStoreSession rid dev a b -> True) by auto. clear X.
      destruct e as [rid dev a b|id|rid key]; cbn [writes m_w m_torn].
      * exact (at_torn W c ok out l k rid dev a b E N).
      * unfold do_write. cbn [m_w m_torn]. rewrite <- apply_effs_app, <- (firstn_nth _ l k _ N).
        exact (at_write W c ok out l (S k) E).
      * unfold do_write. cbn [m_w m_torn]. rewrite <- apply_effs_app, <- (firstn_nth _ l k _ N).
        exact (at_write W c ok out l (S k) E).
    + cbn [writes]. exists l. split; [exact E|]. now rewrite firstn_none.
  - unfold do_write. cbn [m_w m_torn]. rewrite untorn_self, <- apply_effs_app, <- (firstn_nth _ l k _ N).
    exact (at_write W c ok out l (S k) E).
Qed.

Lemma at_world : forall W c p m, at_point W c p m ->
  exists k, m_w m = apply_effs W (firstn k (snd (perform_call C W c))).
Proof.
  intros W c p m H. destruct H as [ | | | | |ok out l k E|ok out l k rid dev a b E N]; cbn [m_w];
    try (exists 0%nat; reflexivity); exists k; now rewrite E.
Qed.

(* --- the invariant of calm executions --- *)
Definition free_ok (t : tstate) : Prop :=
  match t with
  | Free o p _ => exists rid dev, o = OReg rid dev /\
      (p = free_body C o \/ exists r, p = PEnd r)
  | _ => True
  end.

Record inv (w : world) (threads : nat -> list op) (s : pstate) : Prop := {
  i_res : map e_res (p_log s) = seq_results C w (map e_call (p_log s));
  i_calls : forall i, ciphers (threads i) = logged i (p_log s) ++ rest_of (p_thr s i);
  i_calm : forall i, Forall calm (todo_of (p_thr s i));
  i_free : forall i, free_ok (p_thr s i);
  i_lock : match p_lock s with
    | None => (forall i, ~ inside (p_thr s i)) /\ p_mem s = mkMem (after C w (map e_call (p_log s))) []
    | Some i => (exists c p t, p_thr s i = Inside c p t /\
                   at_point (after C w (map e_call (p_log s))) c p (p_mem s)) /\
                (forall j, j <> i -> ~ inside (p_thr s j))
    end }.

Lemma inv_init : forall w threads, (forall i, Forall calm (threads i)) -> inv w threads (pinit w threads).
Proof.
  intros w threads H. constructor; cbn [pinit p_log p_thr p_lock p_mem map seq_results].
  - reflexivity.
  - intros i. reflexivity.
  - exact H.
  - intros i. exact Logic.I.
  - split; [intros i []|]. reflexivity.
Qed.

Lemma set_same : forall f i t, set_thr f i t i = t.
Proof. intros. unfold set_thr. now rewrite Nat.eqb_refl. Qed.
Lemma set_other : forall f i t j, j <> i -> set_thr f i t j = f j.
Proof. intros. unfold set_thr. destruct (Nat.eqb j i) eqn:E; auto. apply Nat.eqb_eq in E. contradiction. Qed.

Lemma logged_app : forall i l j c r, logged i (l ++ [mkEntry j c r]) = logged i l ++ (if Nat.eqb j i then [c] else []).
Proof.
  intros. unfold logged. rewrite filter_app, map_app. cbn [filter e_who]. now destruct (Nat.eqb j i).
Qed.

(* a change of one thread that changes nothing else *)
Lemma inv_thread : forall w threads s i t, inv w threads s ->
  rest_of t = rest_of (p_thr s i) -> Forall calm (todo_of t) -> free_ok t -> ~ inside (p_thr s i) -> ~ inside t ->
  forall d, inv w threads (mkP (p_mem s) (p_lock s) (set_thr (p_thr s) i t) (p_log s) d).
Proof.
  intros w threads s i t [R K CA F L] HR HC HF HI HN d. constructor; cbn [p_log p_thr p_lock p_mem].
  - exact R.
  - intros j. destruct (Nat.eq_dec j i) as [->|N]; [rewrite set_same, HR|rewrite set_other by auto]; apply K.
  - intros j. destruct (Nat.eq_dec j i) as [->|N]; [rewrite set_same|rewrite set_other by auto]; auto.
  - intros j. destruct (Nat.eq_dec j i) as [->|N]; [rewrite set_same|rewrite set_other by auto]; auto.
  - destruct (p_lock s) as [h|].
    + destruct L as [(c & p & t' & E & A) O]. assert (h <> i) by (intros ->; apply HI; rewrite E; exact Logic.I).
      split; [exists c, p, t'; rewrite set_other by auto; auto|].
      intros j N. destruct (Nat.eq_dec j i) as [->|Nj]; [rewrite set_same|rewrite set_other by auto]; auto.
    + destruct L as [O M]. split; auto. intros j.
      destruct (Nat.eq_dec j i) as [->|Nj]; [rewrite set_same|rewrite set_other by auto]; auto.
Qed.

(* an access of the holder that keeps the mutex *)
Lemma inv_holder : forall w threads s i c p t p' m', inv w threads s -> p_thr s i = Inside c p t ->
  at_point (after C w (map e_call (p_log s))) c p' m' ->
  forall d, inv w threads (mkP m' (p_lock s) (set_thr (p_thr s) i (Inside c p' t)) (p_log s) d).
Proof.
  intros w threads s i c p t p' m' [R K CA F L] E A d. constructor; cbn [p_log p_thr p_lock p_mem].
  - exact R.
  - intros j. destruct (Nat.eq_dec j i) as [->|N]; [rewrite set_same|rewrite set_other by auto; apply K].
    rewrite K, E. reflexivity.
  - intros j. destruct (Nat.eq_dec j i) as [->|N]; [rewrite set_same|rewrite set_other by auto]; auto.
    specialize (CA i). rewrite E in CA. exact CA.
  - intros j. destruct (Nat.eq_dec j i) as [->|N]; [rewrite set_same; exact Logic.I|rewrite set_other by auto]; auto.
  - destruct (p_lock s) as [h|].
    + destruct L as [_ O]. assert (h = i).
      { destruct (Nat.eq_dec h i); auto. destruct (O i); auto. rewrite E. exact Logic.I. }
      subst h. split; [exists c, p', t; rewrite set_same; auto|].
      intros j N. rewrite set_other by auto. auto.
    + destruct L as [O _]. destruct (O i). rewrite E. exact Logic.I.
Qed.

Lemma holder : forall w threads s i c p t, inv w threads s -> p_thr s i = Inside c p t ->
  p_lock s = Some i /\ at_point (after C w (map e_call (p_log s))) c p (p_mem s) /\
  (forall j, j <> i -> ~ inside (p_thr s j)).
Proof.
  intros w threads s i c p t [R K CA F L] E. destruct (p_lock s) as [h|].
  - destruct L as [(c' & p' & t' & E' & A) O]. assert (h = i).
    { destruct (Nat.eq_dec h i); auto. destruct (O i); auto. rewrite E. exact Logic.I. }
    subst h. rewrite E in E'. injection E' as <- <- <-. auto.
  - destruct L as [O _]. destruct (O i). rewrite E. exact Logic.I.
Qed.

Lemma inv_dead : forall w threads s d, inv w threads s ->
  inv w threads (mkP (p_mem s) (p_lock s) (p_thr s) (p_log s) d).
Proof. intros w threads s d [R K CA F L]. constructor; auto. Qed.

Lemma inv_step : forall w threads s i, inv w threads s -> inv w threads (pstep C s i).
Proof.
  intros w threads s i H. unfold pstep. destruct (p_dead s); auto.
  destruct (p_thr s i) as [[|o t]|c p t|o p t] eqn:E; auto.
  - (* Ready *)
    pose proof (i_calm _ _ _ H i) as CA. rewrite E in CA. cbn [todo_of] in CA. inversion CA as [|? ? Co Ct]; subst.
    destruct o as [c|rid dev|rid dev b r1 r2]; [| |destruct Co].
    + destruct (p_lock s) as [h|] eqn:LK; auto.
      destruct H as [R K CA' F L]. rewrite LK in L. destruct L as [O M].
      constructor; cbn [p_log p_thr p_lock p_mem].
      * exact R.
      * intros j. destruct (Nat.eq_dec j i) as [->|N]; [rewrite set_same|rewrite set_other by auto; apply K].
        rewrite K, E. reflexivity.
      * intros j. destruct (Nat.eq_dec j i) as [->|N]; [rewrite set_same; exact Ct|rewrite set_other by auto]; auto.
      * intros j. destruct (Nat.eq_dec j i) as [->|N]; [rewrite set_same; exact Logic.I|rewrite set_other by auto]; auto.
      * split.
        -- exists c, (body C c), t. rewrite set_same. split; auto. rewrite M. constructor.
        -- intros j N. rewrite set_other by auto. auto.
    + apply inv_thread; auto.
      * now rewrite E.
      * exists rid, dev. auto.
      * rewrite E. intros [].
  - (* Inside *)
    destruct (holder _ _ _ _ _ _ _ H E) as (LK & A & O). pose proof (at_step _ _ _ _ A) as S.
    destruct p as [[ok out|]|k|rid dev k|e k].
    + destruct S as (l & P & M). destruct H as [R K CA F L].
      assert (EC : map e_call (p_log s ++ [mkEntry i c (ok, out)]) = map e_call (p_log s) ++ [c]) by (rewrite map_app; reflexivity).
      constructor; cbn [p_log p_thr p_lock p_mem].
      * rewrite EC, seq_results_app, map_app, R, P. reflexivity.
      * intros j. rewrite logged_app. destruct (Nat.eq_dec j i) as [->|N].
        -- rewrite set_same, Nat.eqb_refl, K, E, <- app_assoc. reflexivity.
        -- rewrite set_other by auto. destruct (Nat.eqb i j) eqn:X; [apply Nat.eqb_eq in X; congruence|].
           rewrite app_nil_r. apply K.
      * intros j. destruct (Nat.eq_dec j i) as [->|N]; [rewrite set_same|rewrite set_other by auto]; auto.
        specialize (CA i). rewrite E in CA. exact CA.
      * intros j. destruct (Nat.eq_dec j i) as [->|N]; [rewrite set_same; exact Logic.I|rewrite set_other by auto]; auto.
      * split.
        -- intros j. destruct (Nat.eq_dec j i) as [->|N]; [rewrite set_same; intros []|rewrite set_other by auto]; auto.
        -- rewrite EC, after_app, P. exact M.
    + destruct S.
    + eapply inv_holder; eauto.
    + eapply inv_holder; eauto.
    + eapply inv_holder; eauto.
  - (* Free *)
    pose proof (i_free _ _ _ H i) as F. rewrite E in F. destruct F as (rid & dev & -> & F).
    pose proof (i_calm _ _ _ H i) as CA. rewrite E in CA. cbn [todo_of] in CA.
    destruct F as [->|(r & ->)].
    + cbn [free_body]. apply inv_thread; auto.
      * now rewrite E.
      * exists rid, dev. split; auto. right. eauto.
      * rewrite E. intros [].
    + destruct r as [ok out|].
      * apply inv_thread; auto.
        -- now rewrite E.
        -- exact Logic.I.
        -- rewrite E. intros [].
      * now apply inv_dead.
Qed.

Lemma inv_run : forall w threads sched s, inv w threads s -> inv w threads (prun C s sched).
Proof.
  intros w threads sched. induction sched as [|i sched IH]; intros s H; auto.
  change (inv w threads (prun C (pstep C s i) sched)). apply IH. now apply inv_step.
Qed.

(* --- nobody waits for ever --- *)
Record linv (s : pstate) : Prop := {
  l_holder : forall i, p_lock s = Some i -> inside (p_thr s i);
  l_inside : forall i, inside (p_thr s i) -> p_lock s = Some i }.

Lemma linv_step : forall s i, linv s -> linv (pstep C s i).
Proof.
  intros s i [H1 H2]. unfold pstep. destruct (p_dead s); [split; auto|].
  assert (X : forall m l t d, ~ inside t -> ~ inside (p_thr s i) ->
    linv (mkP m (p_lock s) (set_thr (p_thr s) i t) l d)).
  { intros m l t d N1 N2. split; cbn [p_lock p_thr]; intros j Hj.
    - destruct (Nat.eq_dec j i) as [->|N]; [destruct N2; auto|rewrite set_other by auto; auto].
    - destruct (Nat.eq_dec j i) as [->|N]; [rewrite set_same in Hj; destruct N1; auto|rewrite set_other in Hj by auto; auto]. }
  assert (Y : forall m l c p t d, inside (p_thr s i) ->
    linv (mkP m (p_lock s) (set_thr (p_thr s) i (Inside c p t)) l d)).
  { intros m l c p t d N2. split; cbn [p_lock p_thr]; intros j Hj.
    - destruct (Nat.eq_dec j i) as [->|N]; [rewrite set_same; exact Logic.I|rewrite set_other by auto; auto].
    - destruct (Nat.eq_dec j i) as [->|N]; [auto|rewrite set_other in Hj by auto; auto]. }
  destruct (p_thr s i) as [[|o t]|c p t|o p t] eqn:E.
  - split; auto.
  - destruct o as [c|rid dev|rid dev b r1 r2].
    + destruct (p_lock s) as [h|] eqn:LK; [split; auto; rewrite LK; auto|].
      split; cbn [p_lock p_thr]; intros j Hj.
      * injection Hj as <-. rewrite set_same. exact Logic.I.
      * destruct (Nat.eq_dec j i) as [->|N]; auto. rewrite set_other in Hj by auto. specialize (H2 j Hj). discriminate H2.
    + apply X; intros [].
    + apply X; intros [].
  - destruct p as [[ok out|]|k|rid dev k|e k]; try (apply Y; exact Logic.I).
    + assert (LK : p_lock s = Some i) by (apply H2; rewrite E; exact Logic.I).
      split; cbn [p_lock p_thr]; intros j Hj; [discriminate Hj|].
      destruct (Nat.eq_dec j i) as [->|N]; [rewrite set_same in Hj; destruct Hj|rewrite set_other in Hj by auto].
      specialize (H2 j Hj). congruence.
    + split; auto.
  - destruct p as [[ok out|]|k|rid dev k|e k]; try (apply X; intros []). split; auto.
Qed.

Lemma prun_app : forall s a b, prun C s (a ++ b) = prun C (prun C s a) b.
Proof. intros. unfold prun. now rewrite fold_left_app. Qed.

Lemma linv_run : forall sched s, linv s -> linv (prun C s sched).
Proof. induction sched as [|i sched IH]; intros s H; auto. apply (IH (pstep C s i)). now apply linv_step. Qed.

(* a goroutine inside leaves, or the process ends *)
Lemma leave : forall p s i c t, p_thr s i = Inside c p t -> p_dead s = false ->
  exists n, let s' := prun C s (repeat i n) in
  p_dead s' = true \/ (p_dead s' = false /\ p_lock s' = None /\ p_thr s' i = Ready t /\
                       forall j, j <> i -> p_thr s' j = p_thr s j).
Proof.
  induction p as [r|k IH|rid dev p IH|e p IH]; intros s i c t E D.
  - exists 1%nat. cbn [repeat]. unfold prun. cbn [fold_left]. unfold pstep. rewrite D, E.
    destruct r as [ok out|]; cbn [p_dead p_lock p_thr]; [right|left; reflexivity].
    rewrite set_same. do 3 (split; [reflexivity|]). intros j N. now apply set_other.
  - destruct (IH (p_mem s) (pstep C s i) i c t) as (n & H).
    { unfold pstep. rewrite D, E. cbn [p_thr]. apply set_same. }
    { unfold pstep. rewrite D, E. reflexivity. }
    exists (S n). change (prun C s (repeat i (S n))) with (prun C (pstep C s i) (repeat i n)). cbn zeta in H |- *.
    destruct H as [H|(H1 & H2 & H3 & H4)]; [now left|right]. do 3 (split; [assumption|]). intros j N. rewrite H4 by auto.
    unfold pstep. rewrite D, E. cbn [p_thr]. now apply set_other.
  - destruct (IH (pstep C s i) i c t) as (n & H).
    { unfold pstep. rewrite D, E. cbn [p_thr]. apply set_same. }
    { unfold pstep. rewrite D, E. reflexivity. }
    exists (S n). change (prun C s (repeat i (S n))) with (prun C (pstep C s i) (repeat i n)). cbn zeta in H |- *.
    destruct H as [H|(H1 & H2 & H3 & H4)]; [now left|right]. do 3 (split; [assumption|]). intros j N. rewrite H4 by auto.
    unfold pstep. rewrite D, E. cbn [p_thr]. now apply set_other.
  - destruct (IH (pstep C s i) i c t) as (n & H).
    { unfold pstep. rewrite D, E. cbn [p_thr]. apply set_same. }
    { unfold pstep. rewrite D, E. reflexivity. }
    exists (S n). change (prun C s (repeat i (S n))) with (prun C (pstep C s i) (repeat i n)). cbn zeta in H |- *.
    destruct H as [H|(H1 & H2 & H3 & H4)]; [now left|right]. do 3 (split; [assumption|]). intros j N. rewrite H4 by auto.
    unfold pstep. rewrite D, E. cbn [p_thr]. now apply set_other.
Qed.

Lemma leave_free : forall p s i o t, p_thr s i = Free o p t -> p_dead s = false ->
  exists n, let s' := prun C s (repeat i n) in
  p_dead s' = true \/ (p_dead s' = false /\ p_lock s' = p_lock s /\ p_thr s' i = Ready t /\
                       forall j, j <> i -> p_thr s' j = p_thr s j).
Proof.
  induction p as [r|k IH|rid dev p IH|e p IH]; intros s i o t E D.
  - exists 1%nat. cbn [repeat]. unfold prun. cbn [fold_left]. unfold pstep. rewrite D, E.
    destruct r as [ok out|]; cbn [p_dead p_lock p_thr]; [right|left; reflexivity].
    rewrite set_same. do 3 (split; [reflexivity|]). intros j N. now apply set_other.
  - destruct (IH (p_mem s) (pstep C s i) i o t) as (n & H).
    { unfold pstep. rewrite D, E. cbn [p_thr]. apply set_same. }
    { unfold pstep. rewrite D, E. reflexivity. }
    exists (S n). change (prun C s (repeat i (S n))) with (prun C (pstep C s i) (repeat i n)). cbn zeta in H |- *.
    destruct H as [H|(H1 & H2 & H3 & H4)]; [now left|right]. split; [assumption|]. split; [rewrite H2; unfold pstep; rewrite D, E; reflexivity|].
    split; [assumption|]. intros j N. rewrite H4 by auto.
    unfold pstep. rewrite D, E. cbn [p_thr]. now apply set_other.
  - destruct (IH (pstep C s i) i o t) as (n & H).
    { unfold pstep. rewrite D, E. cbn [p_thr]. apply set_same. }
    { unfold pstep. rewrite D, E. reflexivity. }
    exists (S n). change (prun C s (repeat i (S n))) with (prun C (pstep C s i) (repeat i n)). cbn zeta in H |- *.
    destruct H as [H|(H1 & H2 & H3 & H4)]; [now left|right]. split; [assumption|]. split; [rewrite H2; unfold pstep; rewrite D, E; reflexivity|].
    split; [assumption|]. intros j N. rewrite H4 by auto.
    unfold pstep. rewrite D, E. cbn [p_thr]. now apply set_other.
  - destruct (IH (pstep C s i) i o t) as (n & H).
    { unfold pstep. rewrite D, E. cbn [p_thr]. apply set_same. }
    { unfold pstep. rewrite D, E. reflexivity. }
    exists (S n). change (prun C s (repeat i (S n))) with (prun C (pstep C s i) (repeat i n)). cbn zeta in H |- *.
    destruct H as [H|(H1 & H2 & H3 & H4)]; [now left|right]. split; [assumption|]. split; [rewrite H2; unfold pstep; rewrite D, E; reflexivity|].
    split; [assumption|]. intros j N. rewrite H4 by auto.
    unfold pstep. rewrite D, E. cbn [p_thr]. now apply set_other.
Qed.

(* from a state in which the mutex is free, goroutine i can do all it has to do *)
Lemma finish_ready : forall t s i, p_thr s i = Ready t -> p_dead s = false -> p_lock s = None ->
  exists sched, let s' := prun C s sched in
  p_dead s' = true \/ (p_dead s' = false /\ p_lock s' = None /\ p_thr s' i = Ready [] /\
                       forall j, j <> i -> p_thr s' j = p_thr s j).
Proof.
  induction t as [|o t IH]; intros s i E D L.
  - exists []. right. auto.
  - assert (X : exists a, let s' := prun C s a in
      p_dead s' = true \/ (p_dead s' = false /\ p_lock s' = None /\ p_thr s' i = Ready t /\
                           forall j, j <> i -> p_thr s' j = p_thr s j)).
    { destruct o as [c|rid dev|rid dev b r1 r2].
      - destruct (leave (body C c) (pstep C s i) i c t) as (n & H).
        { unfold pstep. rewrite D, E, L. cbn [p_thr]. apply set_same. }
        { unfold pstep. rewrite D, E, L. reflexivity. }
        exists (i :: repeat i n). change (prun C s (i :: repeat i n)) with (prun C (pstep C s i) (repeat i n)).
        cbn zeta in H |- *. destruct H as [H|(H1 & H2 & H3 & H4)]; [now left|right].
        do 3 (split; [assumption|]). intros j N. rewrite H4 by auto.
        unfold pstep. rewrite D, E, L. cbn [p_thr]. now apply set_other.
      - destruct (leave_free (free_body C (OReg rid dev)) (pstep C s i) i (OReg rid dev) t) as (n & H).
        { unfold pstep. rewrite D, E. cbn [p_thr]. apply set_same. }
        { unfold pstep. rewrite D, E. reflexivity. }
        exists (i :: repeat i n). change (prun C s (i :: repeat i n)) with (prun C (pstep C s i) (repeat i n)).
        cbn zeta in H |- *. destruct H as [H|(H1 & H2 & H3 & H4)]; [now left|right].
        split; [assumption|]. split; [rewrite H2; unfold pstep; rewrite D, E; exact L|]. split; [assumption|].
        intros j N. rewrite H4 by auto. unfold pstep. rewrite D, E. cbn [p_thr]. now apply set_other.
      - destruct (leave_free (free_body C (OFirst rid dev b r1 r2)) (pstep C s i) i (OFirst rid dev b r1 r2) t) as (n & H).
        { unfold pstep. rewrite D, E. cbn [p_thr]. apply set_same. }
        { unfold pstep. rewrite D, E. reflexivity. }
        exists (i :: repeat i n). change (prun C s (i :: repeat i n)) with (prun C (pstep C s i) (repeat i n)).
        cbn zeta in H |- *. destruct H as [H|(H1 & H2 & H3 & H4)]; [now left|right].
        split; [assumption|]. split; [rewrite H2; unfold pstep; rewrite D, E; exact L|]. split; [assumption|].
        intros j N. rewrite H4 by auto. unfold pstep. rewrite D, E. cbn [p_thr]. now apply set_other. }
    destruct X as (a & X). cbn zeta in X. destruct X as [X|(X1 & X2 & X3 & X4)]; [exists a; now left|].
    destruct (IH (prun C s a) i X3 X1 X2) as (b & Y). cbn zeta in Y.
    exists (a ++ b). rewrite prun_app. cbn zeta. destruct Y as [Y|(Y1 & Y2 & Y3 & Y4)]; [now left|right].
    do 3 (split; [assumption|]). intros j N. rewrite Y4 by auto. auto.
Qed.

Lemma finish_one : forall s i, linv s -> p_dead s = false -> p_lock s = None ->
  exists sched, let s' := prun C s sched in
  p_dead s' = true \/ (p_dead s' = false /\ p_lock s' = None /\ p_thr s' i = Ready [] /\
                       forall j, j <> i -> p_thr s' j = p_thr s j).
Proof.
  intros s i LI D L. destruct (p_thr s i) as [t|c p t|o p t] eqn:E.
  - apply (finish_ready t); auto.
  - exfalso. assert (X : p_lock s = Some i) by (apply (l_inside _ LI); rewrite E; exact Logic.I). congruence.
  - destruct (leave_free p s i o t E D) as (n & H). cbn zeta in H.
    destruct H as [H|(H1 & H2 & H3 & H4)]; [exists (repeat i n); now left|].
    destruct (finish_ready t (prun C s (repeat i n)) i H3 H1 ltac:(congruence)) as (b & Y). cbn zeta in Y.
    exists (repeat i n ++ b). rewrite prun_app. cbn zeta. destruct Y as [Y|(Y1 & Y2 & Y3 & Y4)]; [now left|right].
    do 3 (split; [assumption|]). intros j N. rewrite Y4 by auto. auto.
Qed.

Lemma finish_free : forall n s, linv s -> p_dead s = false -> p_lock s = None ->
  exists sched, let s' := prun C s sched in
  p_dead s' = true \/ (p_dead s' = false /\ forall j, (j < n)%nat -> p_thr s' j = Ready []).
Proof.
  intros n s LI D L.
  assert (X : exists sched, let s' := prun C s sched in
    p_dead s' = true \/ (p_dead s' = false /\ p_lock s' = None /\ forall j, (j < n)%nat -> p_thr s' j = Ready [])).
  { induction n as [|n (a & IH)].
    - exists []. right. split; [exact D|]. split; [exact L|]. intros j H. lia.
    - cbn zeta in IH. destruct IH as [IH|(H1 & H2 & H3)]; [exists a; now left|].
      destruct (finish_one (prun C s a) n (linv_run a s LI) H1 H2) as (b & Y). cbn zeta in Y.
      exists (a ++ b). rewrite prun_app. cbn zeta. destruct Y as [Y|(Y1 & Y2 & Y3 & Y4)]; [now left|right].
      do 2 (split; [assumption|]). intros j Hj. destruct (Nat.eq_dec j n) as [->|N]; [assumption|].
      rewrite Y4 by auto. apply H3. lia. }
  destruct X as (a & X). exists a. cbn zeta in X |- *. destruct X as [X|(X1 & X2 & X3)]; auto.
Qed.

Lemma finish_all : forall n s, linv s ->
  exists sched, let s' := prun C s sched in
  p_dead s' = true \/ (p_dead s' = false /\ forall j, (j < n)%nat -> p_thr s' j = Ready []).
Proof.
  intros n s LI. destruct (p_dead s) eqn:D; [exists []; now left|].
  destruct (p_lock s) as [h|] eqn:L.
  - pose proof (l_holder _ LI h L) as HI. destruct (p_thr s h) as [t|c p t|o p t] eqn:E; try destruct HI.
    destruct (leave p s h c t E D) as (k & H). cbn zeta in H.
    destruct H as [H|(H1 & H2 & H3 & H4)]; [exists (repeat h k); now left|].
    destruct (finish_free n _ (linv_run (repeat h k) s LI) H1 H2) as (b & Y).
    exists (repeat h k ++ b). now rewrite prun_app.
  - now apply finish_free.
Qed.

Lemma linv_init : forall w threads, linv (pinit w threads).
Proof. intros. split; cbn [pinit p_lock p_thr]; intros i H; [discriminate H|destruct H]. Qed.

(* --- only a read of a registration number ends the process --- *)
Definition no_reg (o : op) : Prop := match o with OReg _ _ => False | _ => True end.
Definition thr_quiet (t : tstate) : Prop :=
  Forall no_reg (todo_of t) /\ match t with Free _ _ _ => False | _ => True end.

Lemma quiet_step : forall w threads s i, inv w threads s -> (forall j, thr_quiet (p_thr s j)) -> p_dead s = false ->
  (forall j, thr_quiet (p_thr (pstep C s i) j)) /\ p_dead (pstep C s i) = false.
Proof.
  intros w threads s i H Q D. unfold pstep. rewrite D.
  assert (X : forall t j, thr_quiet t -> thr_quiet (set_thr (p_thr s) i t j)).
  { intros t j Ht. destruct (Nat.eq_dec j i) as [->|N]; [now rewrite set_same|rewrite set_other by auto; auto]. }
  pose proof (Q i) as Qi. destruct (p_thr s i) as [[|o t]|c p t|o p t] eqn:E.
  - auto.
  - destruct Qi as [Qt _]. cbn [todo_of] in Qt. inversion Qt as [|? ? Qo Qt']; subst.
    pose proof (i_calm _ _ _ H i) as CA. rewrite E in CA. cbn [todo_of] in CA. inversion CA as [|? ? Co Ct]; subst.
    destruct o as [c|rid dev|rid dev b r1 r2]; [|destruct Qo|destruct Co].
    destruct (p_lock s); [auto|]. split; [|reflexivity]. intros j. cbn [p_thr]. apply X. split; auto.
  - destruct (holder _ _ _ _ _ _ _ H E) as (LK & A & O). pose proof (at_step _ _ _ _ A) as S.
    destruct Qi as [Qt _]. cbn [todo_of] in Qt.
    destruct p as [[ok out|]|k|rid dev k|e k]; [|destruct S| | |];
      (split; [|reflexivity]); intros j; cbn [p_thr]; apply X; split; auto.
  - destruct Qi as [_ []].
Qed.

Lemma quiet_run : forall w threads sched s, inv w threads s -> (forall j, thr_quiet (p_thr s j)) -> p_dead s = false ->
  p_dead (prun C s sched) = false.
Proof.
  intros w threads sched. induction sched as [|i sched IH]; intros s H Q D; auto.
  change (p_dead (prun C (pstep C s i) sched) = false).
  destruct (quiet_step w threads s i H Q D) as [Q' D']. apply IH; auto. now apply inv_step.
Qed.
End P.
