(* Properties of the helper process: C171 (found where it is), C172 (starting does not crash), C173 (sealed messages
   are opened for the account), C174 (the code typed is the code verified), C175 (registered means an identifier was
   given), C176 (nothing the helper sends ends the process), C177 (stopping). *)
From Coq Require Import ZArith List Lia Bool.
From Verif Require Import Bytes Res Decimal Encodings PropEncodings Helper.
Import ListNotations.
Open Scope Z_scope.

(* ---- C171: the helper is found ---- *)

(* the programs there are, said without the search *)
Definition present (k : place) (g : program) : Prop :=
  match g with
  | OnPath => k_path k = true
  | Here => k_local k = LFile true
  | Debug => k_local k = LDir true
  end.

(* the helper on the PATH is started, else the one built in ./crayfish; nothing else is ever started, and what is
   started is there. Not proved, because false: a program ./crayfish is started. *)
Theorem C171_found_partial : forall k,
  (k_path k = true -> fst (find_helper k) = Some OnPath) /\
  (k_path k = false -> k_local k = LDir true -> fst (find_helper k) = Some Debug) /\
  (forall g, fst (find_helper k) = Some g -> present k g /\ snd (find_helper k) = k).
Proof.
  intros [[] l]; unfold find_helper; cbn [k_path k_local].
  - split; [reflexivity|]. split; [discriminate|]. intros g E. cbn [fst] in E. injection E as <-. split; reflexivity.
  - split; [discriminate|]. split; [intros _ ->; reflexivity|].
    destruct l as [[]|e|[]]; cbn [fst snd]; intros g E; try discriminate. injection E as <-. split; reflexivity.
Qed.
Print Assumptions C171_found_partial.

(* a program ./crayfish that could be executed is not used: the process ends *)
Theorem C171_local_program_refuted : exists k, present k Here /\ fst (find_helper k) = None.
Proof. exists (mkPlace false (LFile true)). split; reflexivity. Qed.
Print Assumptions C171_local_program_refuted.

(* no program of that name is ever started *)
Theorem C171_never_here : forall k, fst (find_helper k) <> Some Here.
Proof. intros [[] [[]|e|[]]]; unfold find_helper; cbn; discriminate. Qed.
Print Assumptions C171_never_here.

(* looking for it where there is none leaves an empty file behind, which is then in the way of ./crayfish/target *)
Theorem C171_leaves_no_trace_refuted : exists k, (forall g, ~ present k g) /\ snd (find_helper k) <> k /\
  k_local (snd (find_helper k)) = LFile false.
Proof.
  exists (mkPlace false (LAbsent true)). split; [intros []; discriminate|]. split; [discriminate|reflexivity].
Qed.
Print Assumptions C171_leaves_no_trace_refuted.

Example C171_ex : fst (find_helper (mkPlace true (LFile false))) = Some OnPath /\
  fst (find_helper (mkPlace false (LDir true))) = Some Debug /\ fst (find_helper (mkPlace false (LDir false))) = None.
Proof. repeat split. Qed.

(* ---- runs ---- *)
Section Runs.
Variables phone pass name sig : bytes.
Notation step := (step phone pass name sig).
Notation run := (run phone pass name sig).

Lemma run_app a b p : run (a ++ b) p = match run a p with Some q => run b q | None => None end.
Proof.
  revert p. induction a as [|e a IH]; intros p; [reflexivity|].
  cbn [app Helper.run]. destruct (step e p); [apply IH|reflexivity].
Qed.

Lemma run_snoc a e p q : run (a ++ [e]) p = Some q -> exists p1, run a p = Some p1 /\ step e p1 = Some q.
Proof.
  rewrite run_app. destruct (run a p) as [p1|]; [|discriminate]. cbn [Helper.run].
  destruct (step e p1) as [q1|] eqn:E; [|discriminate]. intros H. injection H as <-. eauto.
Qed.

(* what a step of each kind can be *)
Ltac stepcases H :=
  unfold Helper.step in H;
  repeat match type of H with
         | context [match ?x with _ => _ end] => destruct x eqn:?; try discriminate H
         end.

(* ---- C172 ---- *)

(* every time the configuration is read there is one, with this identifier *)
Definition loads (u : bytes) (e : event) : Prop :=
  match e with
  | ELoad r => r = Ok u
  | ENeed (Some r) => r = Ok u
  | _ => True
  end.
(* events that use the helper or Stop it *)
Definition uses (e : event) : bool :=
  match e with EAsk | ECode _ _ | ESealed | EStop => true | _ => false end.
(* nobody uses the helper before the listener got to its first connection *)
Definition patient (es : list event) : Prop :=
  forall pre e post, es = pre ++ e :: post -> uses e = true -> In EListen pre.
Definition installed (k : place) : Prop := k_path k = true \/ k_local k = LDir true.

Definition is_listen (e : event) : bool := match e with EListen => true | _ => false end.
Definition early (r : rpc) : bool := match r with RNone | RInit | RFind | RSleep => true | _ => false end.
(* l: has the listener got to its first connection *)
Record Up (k : place) (l : bool) (p : proc) : Prop := {
  up_alive : p_dead p = None;
  up_place : p_place p = k;
  up_cfg : p_main p = MLoad \/ p_cfg p <> None;
  up_none : p_main p = MLoad -> p_run p = RNone;
  up_none2 : forall f, p_main p = MGo f -> p_run p = RNone;
  up_inst : l = true -> exists i, p_inst p = Some i /\ n_conn i <> None;
  up_early : early (p_run p) = true -> l = false;
  up_stop : l = false -> forall i, p_inst p = Some i -> n_stopping i = false }.

Lemma up_fresh k : Up k false (fresh k).
Proof. constructor; cbn; try reflexivity; try (intros; discriminate); auto. Qed.

Ltac solveup :=
  constructor;
  cbn [p_dead p_place p_cfg p_main p_run p_inst with_main with_run with_conf with_inst with_place with_asked with_conn die
       n_conn n_stopping n_local early] in *; auto; try discriminate;
  try (intros X; match goal with F : _ = MLoad -> _ |- _ => specialize (F X); discriminate F end);
  try (intros f X; match goal with F : forall f, _ = MGo f -> _ |- _ => specialize (F f X); discriminate F end);
  try (right; match goal with F : _ \/ _ |- _ => destruct F as [F|F]; [discriminate F|exact F] end);
  try (right; discriminate).

Lemma up_step u k l e p q : installed k -> loads u e -> (uses e = true -> l = true) ->
  Up k l p -> step e p = Some q -> Up k (l || is_listen e) q.
Proof.
  intros K L U [A PL CF NO NO2 IN EA ST] H. unfold Helper.step in H. rewrite A in H.
  assert (SND : uses e = true -> forall f, exists i, p_inst p = Some i /\ n_conn i <> None /\ sending p f = f i).
  { intros Hu f. destruct (IN (U Hu)) as (i & Ei & Ec). exists i. split; [exact Ei|]. split; [exact Ec|].
    unfold sending. rewrite Ei. destruct (n_conn i); [reflexivity|elim Ec; reflexivity]. }
  destruct e as [r| | |r| |code answer| | | | |ok| | |]; cbn [loads] in L; cbn [uses] in SND; cbn [is_listen];
    try rewrite orb_false_r.
  - (* ELoad *) subst r. destruct (p_main p) eqn:M; try discriminate H. injection H as <-. solveup.
  - (* EGo *) destruct (p_main p) eqn:M; try discriminate H. destruct (p_run p) eqn:R; try discriminate H.
    injection H as <-. solveup.
  - (* ECheck *) destruct (p_main p) eqn:M; try discriminate H. injection H as <-.
    destruct failed; solveup.
  - (* ENeed *) destruct r as [r|]; [subst r|]; destruct (p_main p) eqn:M; try discriminate H; injection H as <-; solveup.
  - (* EAsk *) destruct (p_main p) eqn:M; try discriminate H.
    destruct (SND eq_refl (fun _ => with_main MCode p)) as (i & Ei & Ec & Es). rewrite Es in H. injection H as <-.
    solveup.
  - (* ECode *) destruct (p_main p) eqn:M; try discriminate H.
    assert (Q : q = with_main MFailed p \/ exists v, q = with_main MIdle (with_conf (Some v) p)).
    { destruct (parse_u32 code); [|injection H as <-; auto..].
      match type of H with Some (sending p ?f) = _ => destruct (SND eq_refl f) as (i & Ei & Ec & Es) end.
      rewrite Es in H. destruct (CrayfishRegisterWithCode _ _ _ _ _ _); injection H as <-; eauto. }
    destruct Q as [->|(v & ->)]; solveup.
  - (* EInit *) destruct (p_run p) eqn:R; try (destruct (p_main p); discriminate H).
    assert (ML : p_main p <> MLoad) by (intros X; specialize (NO X); discriminate NO).
    pose proof (EA eq_refl) as NL. subst l.
    destruct CF as [CF|CF]; [contradiction|]. destruct (p_cfg p) as [c|] eqn:EC; [|elim CF; reflexivity].
    assert (Q : q = with_run RFind (with_inst (mkInst c None false false false) p)).
    { destruct (p_main p); injection H as <-; reflexivity. }
    subst q. solveup.
    + right. rewrite EC. discriminate.
    + intros _ i E. injection E as <-. reflexivity.
  - (* EFind *) destruct (p_run p) eqn:R; try (destruct (p_main p); discriminate H).
    pose proof (EA eq_refl) as NL. subst l.
    assert (FH : exists g, find_helper (p_place p) = (Some g, p_place p)).
    { rewrite PL. unfold find_helper. destruct K as [->|E]; [eauto|]. destruct (k_path k); [eauto|]. rewrite E. eauto. }
    destruct FH as (g & FH). rewrite FH in H.
    destruct (p_inst p) as [i|] eqn:EI; [|destruct (p_main p); discriminate H].
    assert (Q : q = with_run RSleep (with_place (p_place p)
                  (with_inst (mkInst (n_local i) (n_conn i) (n_stopping i) true false) p))).
    { destruct (p_main p); injection H as <-; reflexivity. }
    subst q. solveup. intros _ j E. injection E as <-. cbn [n_stopping]. auto.
  - (* EWake *) destruct (p_run p) eqn:R; try (destruct (p_main p); discriminate H).
    assert (Q : q = with_run RLoop p) by (destruct (p_main p); injection H as <-; reflexivity).
    subst q. solveup.
  - (* EListen *) rewrite orb_true_r. destruct (p_run p) eqn:R; try (destruct (p_main p); discriminate H).
    destruct (p_inst p) as [i|] eqn:EI; [|destruct (p_main p); discriminate H].
    assert (Q : (n_stopping i = true /\ q = with_run REnd p) \/
                (n_stopping i = false /\ q = with_run RConnect (with_inst (with_conn (Some false) i) p))).
    { destruct (n_stopping i); [left|right]; (split; [reflexivity|]); destruct (p_main p); injection H as <-; reflexivity. }
    destruct Q as [(S & ->)|(S & ->)].
    + destruct l; [|specialize (ST eq_refl i eq_refl); congruence].
      solveup. rewrite EI. auto.
    + solveup. intros _. eexists. split; [reflexivity|]. discriminate.
  - (* EConnect *) destruct (p_run p) eqn:R; try (destruct (p_main p); discriminate H).
    destruct (p_inst p) as [i|] eqn:EI; [|destruct (p_main p); discriminate H].
    destruct (n_conn i) as [[]|] eqn:EC; try (destruct (p_main p); discriminate H).
    assert (Q : q = if ok then with_inst (with_conn (Some true) i) p else with_run RLoop p).
    { destruct (p_main p); injection H as <-; reflexivity. }
    subst q. destruct ok; solveup.
    + intros _. eexists. split; [reflexivity|]. discriminate.
    + rewrite R. discriminate.
    + intros E j X. injection X as <-. apply (ST E i eq_refl).
    + intros E. rewrite EI. auto.
    + intros E j X. rewrite EI in X. auto.
  - (* EClosed *) destruct (p_run p) eqn:R; try (destruct (p_main p); discriminate H).
    destruct (p_inst p) as [i|] eqn:EI; [|destruct (p_main p); discriminate H].
    destruct (n_conn i) as [[]|] eqn:EC; try (destruct (p_main p); discriminate H).
    assert (Q : q = with_run RLoop p) by (destruct (p_main p); injection H as <-; reflexivity).
    subst q. solveup.
    + intros E. rewrite EI. auto.
    + intros E j X. rewrite EI in X. auto.
  - (* ESealed *) destruct (p_main p) eqn:M; try discriminate H.
    destruct (SND eq_refl (fun i => with_asked (n_local i) p)) as (i & Ei & Ec & Es). rewrite Es in H. injection H as <-.
    solveup; rewrite ?M; auto; intros; discriminate.
  - (* EStop *) destruct (SND eq_refl (fun _ => p)) as (i & Ei & Ec & _). rewrite Ei in H.
    destruct (n_conn i) as [c|] eqn:EC; [|elim Ec; reflexivity].
    assert (Q : q = with_inst (mkInst (n_local i) (Some c) true (n_running i) (n_running i || n_interrupted i)) p).
    { destruct (p_main p), (p_run p); injection H as <-; reflexivity. }
    assert (l = true) by (apply U; reflexivity). subst l q. solveup.
    intros _. eexists. split; [reflexivity|]. discriminate.
Qed.

Lemma listened_in es : existsb is_listen es = true <-> In EListen es.
Proof.
  rewrite existsb_exists. split.
  - intros (e & I & E). destruct e; try discriminate E. exact I.
  - intros I. exists EListen. split; [exact I|reflexivity].
Qed.

Lemma up_run u k es p : installed k -> Forall (loads u) es -> patient es -> run es (fresh k) = Some p ->
  Up k (existsb is_listen es) p.
Proof.
  intros K. revert p. induction es as [|e es IH] using rev_ind; intros p L P H.
  - injection H as <-. apply up_fresh.
  - destruct (run_snoc _ _ _ _ H) as (p1 & H1 & S). apply Forall_app in L. destruct L as [L Le].
    assert (P1 : patient es).
    { intros pre x post -> Ux. apply (P pre x (post ++ [e])); [|exact Ux]. rewrite <- app_assoc. reflexivity. }
    rewrite existsb_app. cbn [existsb]. rewrite orb_false_r.
    apply (up_step u k _ e p1 p K); [inversion Le; assumption| |apply IH; assumption|exact S].
    intros Ux. apply listened_in. apply (P es e []); [reflexivity|exact Ux].
Qed.

(* C172: where the configuration can be read, the helper is installed and nobody uses it before the listener got to
   its first connection, no interleaving of the start, the helper's goroutines, sealed messages, reconnections and
   Stop ends the process. Not proved, because false: that it does not crash otherwise. *)
Theorem C172_start_partial : forall u k es p, installed k -> Forall (loads u) es -> patient es ->
  run es (fresh k) = Some p -> p_dead p = None.
Proof. intros u k es p K L P H. exact (up_alive _ _ _ (up_run u k es p K L P H)). Qed.

(* C173: the identifier handed to the helper with a sealed message *)
(* the account's identifier after these events: the one in the configuration, or what registration gave *)
Definition account1 (a : bytes) (e : event) : bytes :=
  match e with
  | ECode code answer =>
    match CrayfishRegisterWithCode answer phone pass name sig code with Ok v => v | _ => a end
  | _ => a
  end.
Definition account (u : bytes) (es : list event) : bytes := fold_left account1 es u.

(* the steps of a process that is alive, one by one *)
Inductive Step (p : proc) : event -> proc -> Prop :=
| S_load u : p_main p = MLoad -> Step p (ELoad (Ok u)) (with_main (MGo false) (with_conf (Some u) p))
| S_loadf r : p_main p = MLoad -> (forall u, r <> Ok u) -> Step p (ELoad r) (with_main (MGo true) (with_conf None p))
| S_go f : p_main p = MGo f -> p_run p = RNone -> Step p EGo (with_main (MCheck f) (with_run RInit p))
| S_check f : p_main p = MCheck f -> Step p ECheck (with_main (if f then MFailed else MReg) p)
| S_no : p_main p = MReg -> Step p (ENeed None) (with_main MIdle p)
| S_need u : p_main p = MReg -> Step p (ENeed (Some (Ok u))) (with_main MAsk (with_conf (Some u) p))
| S_needf r : p_main p = MReg -> (forall u, r <> Ok u) -> Step p (ENeed (Some r)) (with_main MFailed (with_conf None p))
| S_ask i c : p_main p = MAsk -> p_inst p = Some i -> n_conn i = Some c -> Step p EAsk (with_main MCode p)
| S_askf : p_main p = MAsk -> Step p EAsk (die DPanic p)
| S_code code answer i c v : p_main p = MCode -> p_inst p = Some i -> n_conn i = Some c ->
    CrayfishRegisterWithCode answer phone pass name sig code = Ok v ->
    Step p (ECode code answer) (with_main MIdle (with_conf (Some v) p))
| S_codee code answer : p_main p = MCode -> (forall v, CrayfishRegisterWithCode answer phone pass name sig code <> Ok v) ->
    Step p (ECode code answer) (with_main MFailed p)
| S_codef code answer : p_main p = MCode -> Step p (ECode code answer) (die DPanic p)
| S_init u : p_run p = RInit -> p_cfg p = Some u ->
    Step p EInit (with_run RFind (with_inst (mkInst u None false false false) p))
| S_initf : p_run p = RInit -> p_cfg p = None -> Step p EInit (die DPanic p)
| S_find i g k : p_run p = RFind -> p_inst p = Some i -> find_helper (p_place p) = (Some g, k) ->
    Step p EFind (with_run RSleep (with_place k (with_inst (mkInst (n_local i) (n_conn i) (n_stopping i) true false) p)))
| S_findf i k : p_run p = RFind -> p_inst p = Some i -> find_helper (p_place p) = (None, k) ->
    Step p EFind (die DExit (with_place k p))
| S_wake : p_run p = RSleep -> Step p EWake (with_run RLoop p)
| S_listen i : p_run p = RLoop -> p_inst p = Some i -> n_stopping i = false ->
    Step p EListen (with_run RConnect (with_inst (with_conn (Some false) i) p))
| S_end i : p_run p = RLoop -> p_inst p = Some i -> n_stopping i = true -> Step p EListen (with_run REnd p)
| S_conn i : p_run p = RConnect -> p_inst p = Some i -> n_conn i = Some false ->
    Step p (EConnect true) (with_inst (with_conn (Some true) i) p)
| S_connf i : p_run p = RConnect -> p_inst p = Some i -> n_conn i = Some false -> Step p (EConnect false) (with_run RLoop p)
| S_closed i : p_run p = RConnect -> p_inst p = Some i -> n_conn i = Some true -> Step p EClosed (with_run RLoop p)
| S_sealed i c : p_main p = MIdle -> p_inst p = Some i -> n_conn i = Some c -> Step p ESealed (with_asked (n_local i) p)
| S_sealedf : p_main p = MIdle -> Step p ESealed (die DPanic p)
| S_stop i c : p_inst p = Some i -> n_conn i = Some c ->
    Step p EStop (with_inst (mkInst (n_local i) (Some c) true (n_running i) (n_running i || n_interrupted i)) p)
| S_stope i : p_inst p = Some i -> n_conn i = None ->
    Step p EStop (with_inst (mkInst (n_local i) None true (n_running i) (n_interrupted i)) p)
| S_stopf : p_inst p = None -> Step p EStop (die DPanic p).

Lemma step_Step e p q : step e p = Some q -> p_dead p = None /\ Step p e q.
Proof.
  unfold Helper.step. destruct (p_dead p) as [d|]; [discriminate|]. intros H. split; [reflexivity|].
  assert (SN : forall m k (P : proc -> Prop), sending p k = m ->
            (forall i c, p_inst p = Some i -> n_conn i = Some c -> P (k i)) -> P (die DPanic p) -> P m).
  { intros m k P E Y N. subst m. unfold sending. destruct (p_inst p) as [i|]; [|exact N].
    destruct (n_conn i) as [c|] eqn:EC; [exact (Y i c eq_refl EC)|exact N]. }
  destruct e as [r| | |r| |code answer| | | | |ok| | |].
  - destruct (p_main p) eqn:M; try (destruct r; discriminate H).
    destruct r; injection H as <-; constructor; auto; discriminate.
  - destruct (p_main p) eqn:M; try discriminate H. destruct (p_run p) eqn:R; try discriminate H.
    injection H as <-. apply S_go; auto.
  - destruct (p_main p) eqn:M; try discriminate H. injection H as <-. apply (S_check p failed M).
  - destruct (p_main p) eqn:M; try (destruct r as [[]|]; discriminate H).
    destruct r as [[]|]; injection H as <-; constructor; auto; discriminate.
  - destruct (p_main p) eqn:M; try discriminate H.
    assert (E : sending p (fun _ => with_main MCode p) = q) by congruence.
    apply (SN q _ (fun x => Step p EAsk x) E); [intros i c Ei Ec; exact (S_ask p i c M Ei Ec)|exact (S_askf p M)].
  - destruct (p_main p) eqn:M; try discriminate H.
    assert (NE : forall e1, parse_u32 code = e1 -> (forall v, e1 <> Ok v) ->
              forall v, CrayfishRegisterWithCode answer phone pass name sig code <> Ok v).
    { intros e1 <- N v X. unfold CrayfishRegisterWithCode, verify_request in X.
      destruct (parse_u32 code) as [w| |]; [exact (N w eq_refl)|discriminate X|discriminate X]. }
    destruct (parse_u32 code) as [w|er|] eqn:PU.
    + match type of H with Some (sending p ?f) = _ => assert (E : sending p f = q) by congruence end.
      apply (SN q _ (fun x => Step p (ECode code answer) x) E); [|exact (S_codef p code answer M)].
      intros i c Ei Ec. destruct (CrayfishRegisterWithCode answer phone pass name sig code) as [v| |] eqn:CR.
      * exact (S_code p code answer i c v M Ei Ec CR).
      * apply S_codee; [exact M|]. intros v X. congruence.
      * apply S_codee; [exact M|]. intros v X. congruence.
    + injection H as <-. apply S_codee; [exact M|]. apply (NE _ eq_refl). discriminate.
    + injection H as <-. apply S_codee; [exact M|]. apply (NE _ eq_refl). discriminate.
  - destruct (p_run p) eqn:R; try (destruct (p_main p); discriminate H).
    assert (Q : Some (match p_cfg p with None => die DPanic p
                 | Some u => with_run RFind (with_inst (mkInst u None false false false) p) end) = Some q).
    { rewrite <- H. destruct (p_main p); reflexivity. }
    destruct (p_cfg p) as [c|] eqn:EC; injection Q as <-; constructor; auto.
  - destruct (p_run p) eqn:R; try (destruct (p_main p); discriminate H).
    destruct (p_inst p) as [i|] eqn:EI; [|destruct (p_main p); discriminate H].
    destruct (find_helper (p_place p)) as [[g|] k] eqn:F;
      (replace (Some q) with (Some q) in H by reflexivity).
    + assert (Q : with_run RSleep (with_place k (with_inst (mkInst (n_local i) (n_conn i) (n_stopping i) true false) p)) = q).
      { destruct (p_main p); injection H as <-; reflexivity. }
      subst q. exact (S_find p i g k R EI F).
    + assert (Q : die DExit (with_place k p) = q) by (destruct (p_main p); injection H as <-; reflexivity).
      subst q. exact (S_findf p i k R EI F).
  - destruct (p_run p) eqn:R; try (destruct (p_main p); discriminate H).
    assert (Q : with_run RLoop p = q) by (destruct (p_main p); injection H as <-; reflexivity).
    subst q. exact (S_wake p R).
  - destruct (p_run p) eqn:R; try (destruct (p_main p); discriminate H).
    destruct (p_inst p) as [i|] eqn:EI; [|destruct (p_main p); discriminate H].
    destruct (n_stopping i) eqn:ES.
    + assert (Q : with_run REnd p = q) by (destruct (p_main p); injection H as <-; reflexivity).
      subst q. exact (S_end p i R EI ES).
    + assert (Q : with_run RConnect (with_inst (with_conn (Some false) i) p) = q)
        by (destruct (p_main p); injection H as <-; reflexivity).
      subst q. exact (S_listen p i R EI ES).
  - destruct (p_run p) eqn:R; try (destruct (p_main p); discriminate H).
    destruct (p_inst p) as [i|] eqn:EI; [|destruct (p_main p); discriminate H].
    destruct (n_conn i) as [[]|] eqn:EC; try (destruct (p_main p); discriminate H).
    destruct ok.
    + assert (Q : with_inst (with_conn (Some true) i) p = q) by (destruct (p_main p); injection H as <-; reflexivity).
      subst q. exact (S_conn p i R EI EC).
    + assert (Q : with_run RLoop p = q) by (destruct (p_main p); injection H as <-; reflexivity).
      subst q. exact (S_connf p i R EI EC).
  - destruct (p_run p) eqn:R; try (destruct (p_main p); discriminate H).
    destruct (p_inst p) as [i|] eqn:EI; [|destruct (p_main p); discriminate H].
    destruct (n_conn i) as [[]|] eqn:EC; try (destruct (p_main p); discriminate H).
    assert (Q : with_run RLoop p = q) by (destruct (p_main p); injection H as <-; reflexivity).
    subst q. exact (S_closed p i R EI EC).
  - destruct (p_main p) eqn:M; try discriminate H.
    assert (E : sending p (fun i => with_asked (n_local i) p) = q) by congruence.
    apply (SN q _ (fun x => Step p ESealed x) E); [intros i c Ei Ec; exact (S_sealed p i c M Ei Ec)|exact (S_sealedf p M)].
  - destruct (p_inst p) as [i|] eqn:EI.
    + destruct (n_conn i) as [c|] eqn:EC.
      * assert (Q : with_inst (mkInst (n_local i) (Some c) true (n_running i) (n_running i || n_interrupted i)) p = q)
          by (destruct (p_main p), (p_run p); injection H as <-; reflexivity).
        subst q. exact (S_stop p i c EI EC).
      * assert (Q : with_inst (mkInst (n_local i) None true (n_running i) (n_interrupted i)) p = q)
          by (destruct (p_main p), (p_run p); injection H as <-; reflexivity).
        subst q. exact (S_stope p i EI EC).
    + assert (Q : die DPanic p = q) by (destruct (p_main p), (p_run p); injection H as <-; reflexivity).
      subst q. exact (S_stopf p EI).
Qed.

(* ---- C173 ---- *)
Record Ids (u : bytes) (es : list event) (p : proc) : Prop := {
  id_cfg : p_dead p = None -> p_main p <> MLoad -> p_cfg p = Some (account u es);
  id_unset : p_main p = MLoad -> p_cfg p = None;
  id_before : p_main p = MLoad -> p_run p = RNone;
  id_run : p_run p = RNone \/ p_run p = RInit -> p_inst p = None;
  id_none : p_inst p = None -> p_dead p = None -> account u es = u;
  id_inst : forall i, p_inst p = Some i -> n_local i = u;
  id_main : p_main p <> MIdle -> p_dead p = None -> account u es = u;
  id_asked : Forall (eq u) (p_asked p) }.

Lemma account_snoc u es e : account u (es ++ [e]) = account1 (account u es) e.
Proof. unfold account. rewrite fold_left_app. reflexivity. Qed.

Ltac ids :=
  constructor; cbn [p_dead p_place p_cfg p_main p_run p_inst p_asked with_main with_run with_conf with_inst with_place with_asked die
    with_conn n_local] in *; rewrite ?account_snoc; cbn [account1]; auto; try discriminate; try (intros; congruence).

Lemma ids_step u es e p q : loads u e -> Ids u es p -> step e p = Some q -> Ids u (es ++ [e]) q.
Proof.
  intros L [CF US BE RU NO IN MA AK] H. destruct (step_Step _ _ _ H) as (A & S). clear H.
  specialize (CF A). 
  destruct S; cbn [loads] in L; try (match goal with F : forall u, _ <> Ok u |- _ => elim (F _ L) end);
    try (injection L as ->); ids.
  all: try (match goal with |- _ = MLoad -> _ = _ => intros X; specialize (BE X); congruence end).
  all: try (match goal with |- _ \/ _ -> _ = _ => intros X; (destruct X; discriminate) || (specialize (RU X); congruence) end).
  all: try (match goal with |- forall i, _ = Some i -> _ = _ => intros j X; injection X as <-; cbn [n_local with_conn]; auto end).
  all: try (intros _ _; apply CF; congruence).
  all: try (intros _ _; apply MA; [congruence|exact A]).
  all: try (match goal with C : CrayfishRegisterWithCode _ _ _ _ _ _ = Ok _ |- _ => rewrite C end).
  all: try reflexivity.
  all: try (constructor; [symmetry; auto|exact AK]).
  all: try (match goal with N : forall v, CrayfishRegisterWithCode ?a ?b ?c ?d ?e ?f <> Ok v |- _ =>
              destruct (CrayfishRegisterWithCode a b c d e f) as [v| |]; [elim (N v eq_refl)| |] end).
  all: try (intros _ _; apply CF; congruence).
  all: try (intros _ _; apply MA; [congruence|exact A]).
  - intros _ _. rewrite MA; [reflexivity|congruence|exact A].
  - destruct f; discriminate.
  - destruct f; discriminate.
  - intros _ _. rewrite MA; [reflexivity|congruence|exact A].
  - assert (M : p_main p <> MLoad) by (intros X; specialize (BE X); congruence).
    specialize (CF M). rewrite NO in CF; [congruence|apply RU; auto|exact A].
Qed.

Lemma ids_run u k es p : Forall (loads u) es -> run es (fresh k) = Some p -> Ids u es p.
Proof.
  revert p. induction es as [|e es IH] using rev_ind; intros p L H.
  - injection H as <-. constructor; cbn; auto; intros; try discriminate; try reflexivity. elim H0; reflexivity.
  - destruct (run_snoc _ _ _ _ H) as (p1 & H1 & S). apply Forall_app in L. destruct L as [L Le].
    apply (ids_step u es e p1 p); [inversion Le; assumption|apply IH; assumption|exact S].
Qed.

(* the identifier in the configuration is that of the account *)
Theorem C173_account : forall u k es p, Forall (loads u) es -> run es (fresh k) = Some p -> p_dead p = None ->
  p_main p <> MLoad -> p_cfg p = Some (account u es).
Proof. intros u k es p L H A M. exact (id_cfg _ _ _ (ids_run u k es p L H) A M). Qed.

(* in a process that does not register, every sealed message is handed to the helper with the identifier of the
   account. Not proved, because false: the same of a process that registers. *)
Theorem C173_sealed_partial : forall u k es p, Forall (loads u) es ->
  (forall code answer, ~ In (ECode code answer) es) -> run es (fresh k) = Some p ->
  Forall (eq (account u es)) (p_asked p).
Proof.
  intros u k es p L N H. replace (account u es) with u; [exact (id_asked _ _ _ (ids_run u k es p L H))|].
  unfold account. clear L H. induction es as [|e es IH]; [reflexivity|]. cbn [fold_left].
  replace (account1 u e) with u.
  - apply IH. intros c a X. exact (N c a (or_intror X)).
  - destruct e; try reflexivity. elim (N code answer). left. reflexivity.
Qed.

(* however it is run, the identifier handed over is the one of the configuration the process started with *)
Theorem C173_always_the_old_one : forall u k es p, Forall (loads u) es -> run es (fresh k) = Some p ->
  Forall (eq u) (p_asked p).
Proof. intros u k es p L H. exact (id_asked _ _ _ (ids_run u k es p L H)). Qed.

(* ---- C177 ---- *)
Definition stopping (p : proc) : Prop := exists i, p_inst p = Some i /\ n_stopping i = true.
Definition interrupted (p : proc) : Prop := exists i, p_inst p = Some i /\ n_interrupted i = true.

Record Stp (p : proc) : Prop := {
  st_run : p_run p = RNone \/ p_run p = RInit -> p_inst p = None;
  st_found : forall i, p_inst p = Some i -> p_run p <> RFind -> n_running i = true;
  st_int : forall i, p_inst p = Some i -> n_conn i = None -> n_interrupted i = false }.

Ltac redp := cbn [p_dead p_place p_cfg p_main p_run p_inst p_asked with_main with_run with_conf with_inst with_place with_asked die
    with_conn n_local n_conn n_stopping n_running n_interrupted] in *.

Lemma stp_step e p q : Stp p -> step e p = Some q -> Stp q.
Proof.
  intros [RU FO NI] H. destruct (step_Step _ _ _ H) as (A & S). clear H.
  destruct S; constructor; redp; auto; try discriminate; try (intros; congruence).
  all: try (match goal with |- _ \/ _ -> _ = _ => intros X; (destruct X; discriminate) || (specialize (RU X); congruence) end).
  all: try (match goal with |- forall i, Some _ = Some i -> _ =>
         intros j X; injection X as <-; redp; auto; try reflexivity; try discriminate; try congruence; intros; apply FO; congruence end).
  all: try (intros j X _; apply FO; congruence).
  all: intros j X; rewrite RU in X; [discriminate|auto].
Qed.

Lemma stp_run k es p : run es (fresh k) = Some p -> Stp p.
Proof.
  revert p. induction es as [|e es IH] using rev_ind; intros p H.
  - injection H as <-. constructor; cbn; auto; intros; discriminate.
  - destruct (run_snoc _ _ _ _ H) as (p1 & H1 & S). exact (stp_step e p1 p (IH p1 H1) S).
Qed.

(* once interrupted, and not looking for the helper any more *)
Lemma stays e p q : p_run p <> RFind -> Stp p -> step e p = Some q ->
  (interrupted p -> interrupted q) /\ (stopping p -> stopping q).
Proof.
  intros N ST H. pose proof (st_run _ ST) as RU. destruct (step_Step _ _ _ H) as (A & S). clear H.
  assert (NI : p_run p = RInit -> forall P : Prop, (exists i, p_inst p = Some i /\ P) -> False).
  { intros R P (i & E & _). rewrite RU in E; [discriminate E|auto]. }
  unfold interrupted, stopping.
  destruct S; redp; try (split; exact (fun x => x)); try contradiction; try (exfalso; congruence).
  - split; intros (j & E & _); rewrite RU in E; auto; discriminate.
  - split; intros (j & E & F); (eexists; split; [reflexivity|]); redp; congruence.
  - split; intros (j & E & F); (eexists; split; [reflexivity|]); redp; congruence.
  - split; intros (j & E & F); (eexists; split; [reflexivity|]); redp; [|reflexivity].
    replace j with i in F by congruence. rewrite F. apply orb_true_r.
  - split; intros (j & E & F); (eexists; split; [reflexivity|]); redp; [congruence|reflexivity].
Qed.

(* C177: where nobody uses the helper before the listener got to its first connection, after Stop the helper has been
   interrupted and the listener told to end. Not proved, because false: the same of a Stop before. *)
Theorem C177_stop_partial : forall u k es p, installed k -> Forall (loads u) es -> patient es ->
  run es (fresh k) = Some p -> In EStop es -> interrupted p /\ stopping p.
Proof.
  intros u k es p K. revert p. induction es as [|e es IH] using rev_ind; intros p L P H I0; [destruct I0|].
  destruct (run_snoc _ _ _ _ H) as (p1 & H1 & S). apply Forall_app in L. destruct L as [L Le].
  assert (P1 : patient es).
  { intros pre x post -> Ux. apply (P pre x (post ++ [e])); [|exact Ux]. rewrite <- app_assoc. reflexivity. }
  pose proof (up_run u k es p1 K L P1 H1) as UP. pose proof (stp_run k es p1 H1) as ST.
  assert (LI : In EStop es -> In EListen es).
  { intros X. apply in_split in X. destruct X as (a & b & ->). apply in_or_app. left. apply (P1 a EStop b); reflexivity. }
  assert (NF : In EListen es -> p_run p1 <> RFind).
  { intros X R. pose proof (up_early _ _ _ UP) as E. rewrite R in E. specialize (E eq_refl).
    apply listened_in in X. congruence. }
  apply in_app_or in I0. destruct I0 as [I0|[->|[]]].
  - specialize (IH p1 L P1 H1 I0). destruct (stays e p1 p (NF (LI I0)) ST S) as [F G].
    split; [apply F|apply G]; apply IH.
  - assert (X : In EListen es) by (apply (P es EStop []); reflexivity).
    destruct (up_inst _ _ _ UP (proj2 (listened_in es) X)) as (i & Ei & Ec).
    pose proof (st_found _ ST i Ei (NF X)) as RN.
    destruct (step_Step _ _ _ S) as (_ & T). inversion T; subst; try congruence.
    assert (i0 = i) by congruence. subst i0. split; (eexists; split; [reflexivity|]); redp; [|reflexivity].
    rewrite RN. reflexivity.
Qed.

(* a Stop before the first connection does not stop the helper, and nothing does afterwards *)
Theorem C177_too_early : forall k es1 es2 p1 i p, run es1 (fresh k) = Some p1 -> p_inst p1 = Some i -> n_conn i = None ->
  run (EStop :: es2) p1 = Some p -> ~ interrupted p.
Proof.
  intros k es1 es2 p1 i p H1 Ei Ec H2.
  set (Q := fun p : proc => exists i, p_inst p = Some i /\ n_conn i = None /\ n_stopping i = true /\ n_interrupted i = false).
  cbn [Helper.run] in H2. destruct (step EStop p1) as [p2|] eqn:E; [|discriminate H2].
  assert (X : Q p2 /\ Stp p2).
  { pose proof (stp_run _ _ _ H1) as ST. split; [|exact (stp_step _ _ _ ST E)].
    destruct (step_Step _ _ _ E) as (_ & T). inversion T; subst; try congruence.
    exists (mkInst (n_local i0) None true (n_running i0) (n_interrupted i0)). redp. repeat split; try reflexivity.
    exact (st_int _ ST i0 H H0). }
  clear E H1 Ei Ec. revert p2 X H2. induction es2 as [|e es IH]; intros p2 [(j & Ej & Cj & Sj & Ij) ST] H2.
  - injection H2 as <-. intros (j' & E' & I'). congruence.
  - cbn [Helper.run] in H2. destruct (step e p2) as [p3|] eqn:E; [|discriminate H2].
    apply (IH p3); [|exact H2]. split; [|exact (stp_step _ _ _ ST E)]. unfold Q.
    pose proof (st_run _ ST) as RU.
    destruct (step_Step _ _ _ E) as (_ & T). clear E H2 IH.
    destruct T; redp; try (exists j; repeat split; assumption); try congruence.
    + rewrite RU in Ej by auto. discriminate Ej.
    + eexists. split; [reflexivity|]. redp. assert (i0 = j) by congruence. subst i0. auto.
    + eexists. split; [reflexivity|]. redp. assert (i0 = j) by congruence. subst i0. auto.
Qed.

(* after Stop at most one connection is made: the one being made *)
Definition connects (e : event) : bool := match e with EConnect true => true | _ => false end.
Theorem C177_no_new_connection : forall k es1 es2 p, run (es1 ++ EStop :: es2) (fresh k) = Some p ->
  (length (filter connects es2) <= 1)%nat.
Proof.
  intros k es1 es2 p H. rewrite run_app in H. destruct (run es1 (fresh k)) as [p1|] eqn:H1; [|discriminate H].
  cbn [Helper.run] in H. destruct (step EStop p1) as [p2|] eqn:E; [|discriminate H].
  pose proof (stp_step _ _ _ (stp_run _ _ _ H1) E) as ST.
  set (pot := fun p : proc => match p_run p, p_inst p with
                | RConnect, Some i => match n_conn i with Some false => 1%nat | _ => 0%nat end
                | _, _ => 0%nat end).
  assert (X : forall es p2 p, Stp p2 -> stopping p2 \/ p_dead p2 <> None -> run es p2 = Some p ->
            (length (filter connects es) <= pot p2)%nat).
  { clear. induction es as [|e es IH]; intros p2 p ST S H; [cbn; lia|].
    cbn [Helper.run] in H. destruct (step e p2) as [p3|] eqn:E; [|discriminate H].
    pose proof (stp_step _ _ _ ST E) as ST3. specialize (IH p3 p ST3).
    pose proof (st_run _ ST) as RU. destruct (step_Step _ _ _ E) as (A & T).
    destruct S as [S|S]; [|contradiction].
    assert (S3 : stopping p3 \/ p_dead p3 <> None).
    { destruct S as (j & Ej & Sj). unfold stopping.
      destruct T; redp; try (left; exists j; split; assumption); try (right; discriminate).
      - rewrite RU in Ej by auto. discriminate Ej.
      - left. eexists. split; [reflexivity|]. redp. congruence.
      - left. eexists. split; [reflexivity|]. redp. congruence.
      - left. eexists. split; [reflexivity|]. redp. congruence.
      - left. eexists. split; [reflexivity|]. reflexivity.
      - left. eexists. split; [reflexivity|]. reflexivity. }
    specialize (IH S3 H). cbn [filter].
    assert (G : ((if connects e then 1 else 0) + pot p3 <= pot p2)%nat).
    { destruct S as (j & Ej & Sj). unfold pot in *. clear IH H S3 E.
      destruct T; redp; cbn [connects]; repeat match goal with R : p_run _ = _ |- _ => rewrite R end; try lia.
      - exfalso. congruence.
      - repeat match goal with R : p_inst _ = _ |- _ => rewrite R end.
        repeat match goal with R : n_conn _ = _ |- _ => rewrite R end. lia.
      - repeat match goal with R : p_inst _ = _ |- _ => rewrite R end.
        repeat match goal with R : n_conn _ = _ |- _ => rewrite R end. destruct (p_run p2), c; lia.
      - destruct (p_run p2); lia. }
    destruct (connects e); cbn [length]; lia. }
  assert (S2 : stopping p2 \/ p_dead p2 <> None).
  { destruct (step_Step _ _ _ E) as (_ & T). unfold stopping. inversion T; subst; redp;
      [left|left|right; discriminate]; (eexists; split; reflexivity). }
  pose proof (X es2 p2 p ST S2 H) as Y.
  assert (pot p2 <= 1)%nat; [|lia].
  unfold pot. destruct (p_run p2); try lia. destruct (p_inst p2) as [i|]; [|lia]. destruct (n_conn i) as [[]|]; lia.
Qed.
End Runs.
Print Assumptions C172_start_partial.
Print Assumptions C173_account.
Print Assumptions C173_sealed_partial.
Print Assumptions C173_always_the_old_one.
Print Assumptions C177_stop_partial.
Print Assumptions C177_too_early.
Print Assumptions C177_no_new_connection.

(* ---- witnesses ---- *)
Definition here : place := mkPlace true (LAbsent false).
Definition u_old : bytes := [111].
Definition u_new : bytes := Eval vm_compute in match idToHexUUID [1;2;3;4;5;6;7;8;9;10;11;12;13;14;15;16] with Ok u => u | _ => [] end.
Definition ok_answer : vreq -> json := fun _ => JObj [(n_uuid, JArr (map JNum [1;2;3;4;5;6;7;8;9;10;11;12;13;14;15;16])); (n_capable, JBool true)].
Definition code1 : bytes := [49;50;51;52;53;54].

(* a configuration that cannot be read ends the process, also after Setup has returned its error *)
Theorem C172_no_configuration_refuted : exists es p, run [] [] [] [] es (fresh here) = Some p /\
  p_main p = MFailed /\ p_dead p = Some DPanic.
Proof. exists [ELoad (Err EOther); EGo; ECheck; EInit]. eexists. split; [vm_compute; reflexivity|]. split; reflexivity. Qed.
Print Assumptions C172_no_configuration_refuted.

(* registering while the helper is being started ends the process *)
Theorem C172_registering_refuted : exists es p, Forall (loads u_old) es /\ run [] [] [] [] es (fresh here) = Some p /\
  p_dead p = Some DPanic.
Proof.
  exists [ELoad (Ok u_old); EGo; ECheck; ENeed (Some (Ok u_old)); EInit; EFind; EAsk]. eexists.
  split; [repeat constructor|]. split; [vm_compute; reflexivity|reflexivity].
Qed.
Print Assumptions C172_registering_refuted.

(* a sealed message that arrives while the helper is being started ends the process *)
Theorem C172_sealed_refuted : exists es p, Forall (loads u_old) es /\ run [] [] [] [] es (fresh here) = Some p /\
  p_dead p = Some DPanic.
Proof.
  exists [ELoad (Ok u_old); EGo; ECheck; ENeed None; EInit; EFind; EWake; ESealed]. eexists.
  split; [repeat constructor|]. split; [vm_compute; reflexivity|reflexivity].
Qed.
Print Assumptions C172_sealed_refuted.

(* hypotheses of C172_start_partial and C177_stop_partial: a start that registers, loses the connection and stops *)
Definition ex_run : list event :=
  [ELoad (Ok u_old); EGo; EInit; ECheck; EFind; EWake; EListen; EConnect false; EListen; ENeed (Some (Ok u_old));
   EConnect true; EAsk; ECode code1 ok_answer; ESealed; EClosed; EListen; ESealed; EStop; EConnect true; EClosed; EListen].
Lemma ex_patient : patient ex_run.
Proof.
  intros pre e post E U. unfold ex_run in E.
  do 7 (destruct pre as [|? pre]; [injection E as <- _; discriminate U|injection E as <- E]).
  cbn [In]. auto 10.
Qed.
Example C172_ex : exists p, run [] [] [] [] ex_run (fresh here) = Some p /\ installed here /\ Forall (loads u_old) ex_run /\
  patient ex_run /\ p_dead p = None /\ p_main p = MIdle /\ p_run p = REnd /\ p_cfg p = Some u_new /\ p_asked p = [u_old; u_old] /\
  In EStop ex_run /\ interrupted p.
Proof.
  eexists. split; [vm_compute; reflexivity|]. split; [left; reflexivity|]. split; [repeat constructor|].
  split; [exact ex_patient|]. do 5 (split; [reflexivity|]). split; [cbn [In ex_run]; auto 20|].
  eexists. split; reflexivity.
Qed.

(* C173: after registering, sealed messages are handed over with another identifier than the account's *)
Theorem C173_after_registering_refuted : exists es p, Forall (loads u_old) es /\ patient es /\
  run [] [] [] [] es (fresh here) = Some p /\ p_dead p = None /\ p_cfg p = Some u_new /\
  account [] [] [] [] u_old es = u_new /\ In u_old (p_asked p) /\ u_old <> u_new.
Proof.
  destruct C172_ex as (p & R & _ & L & P & D & _ & _ & Cf & A & _). exists ex_run, p.
  split; [exact L|]. split; [exact P|]. split; [exact R|]. split; [exact D|]. split; [exact Cf|].
  split; [vm_compute; reflexivity|]. split; [rewrite A; left; reflexivity|].
  apply beq_neq. vm_compute. reflexivity.
Qed.
Print Assumptions C173_after_registering_refuted.

Example C173_ex : exists es p, Forall (loads u_old) es /\ (forall code answer, ~ In (ECode code answer) es) /\
  run [] [] [] [] es (fresh here) = Some p /\ p_asked p = [u_old; u_old] /\ account [] [] [] [] u_old es = u_old.
Proof.
  exists [ELoad (Ok u_old); EGo; EInit; ECheck; EFind; EWake; EListen; ENeed None; ESealed; EConnect true; ESealed]. eexists.
  split; [repeat constructor|]. split; [intros c a; cbn [In]; intuition discriminate|].
  split; [vm_compute; reflexivity|]. split; [reflexivity|]. vm_compute. reflexivity.
Qed.

(* C177: a Stop in the first second does not stop the helper; no later one does *)
Theorem C177_stop_refuted : exists es p, Forall (loads u_old) es /\ run [] [] [] [] es (fresh here) = Some p /\
  p_dead p = None /\ (2 <= length (filter (fun e => match e with EStop => true | _ => false end) es))%nat /\ ~ interrupted p.
Proof.
  exists [ELoad (Ok u_old); EGo; EInit; ECheck; ENeed None; EFind; EStop; EWake; EListen; EStop]. eexists.
  split; [repeat constructor|]. split; [vm_compute; reflexivity|]. split; [reflexivity|]. split; [cbn; lia|].
  intros (i & E & X). injection E as <-. discriminate X.
Qed.
Print Assumptions C177_stop_refuted.

Example C177_ex : exists es1 es2 p1 i p, run [] [] [] [] es1 (fresh here) = Some p1 /\ p_inst p1 = Some i /\ n_conn i = None /\
  run [] [] [] [] (EStop :: es2) p1 = Some p /\ n_running i = true /\
  exists q, run [] [] [] [] (ex_run ++ [EStop]) (fresh here) = Some q.
Proof.
  exists [ELoad (Ok u_old); EGo; EInit; ECheck; ENeed None; EFind], [EWake; EListen; EStop]. do 3 eexists.
  split; [vm_compute; reflexivity|]. split; [reflexivity|]. split; [reflexivity|]. split; [vm_compute; reflexivity|].
  split; [reflexivity|]. eexists. vm_compute. reflexivity.
Qed.

(* ---- C174: the code ---- *)

Lemma undec_digits l : forall a v, undec a l = Some v -> Forall (fun c => is_digit c = true) l.
Proof.
  induction l as [|c l IH]; intros a v H; [constructor|]. cbn [undec] in H.
  destruct (is_digit c) eqn:D; [|discriminate H]. constructor; [exact D|exact (IH _ _ H)].
Qed.
Lemma undec_ge l : forall a v, 0 <= a -> undec a l = Some v -> a <= v.
Proof.
  induction l as [|c l IH]; intros a v A H; cbn [undec] in H; [injection H as <-; lia|].
  destruct (is_digit c) eqn:D; [|discriminate H].
  unfold is_digit in D. apply andb_true_iff in D. destruct D as [D1 D2]. apply Z.leb_le in D1, D2.
  specialize (IH (a * 10 + (c - 48)) v). assert (0 <= a * 10 + (c - 48)) by lia. specialize (IH H0 H). lia.
Qed.

(* the numeral of a number is its digits without leading zeros *)
Lemma udec_unique n : forall s v, (length s <= n)%nat -> s <> [] -> undec 0 s = Some v ->
  (hd 0 s <> 48 \/ length s = 1%nat) -> udec_fuel n v = s.
Proof.
  induction n as [|n IH]; intros s v L N U HD; [destruct s; [elim N; reflexivity|cbn in L; lia]|].
  destruct (exists_last N) as (t & c & ->). rewrite undec_app in U.
  destruct (undec 0 t) as [w|] eqn:UT; [|discriminate U]. cbn [undec] in U.
  destruct (is_digit c) eqn:D; [|discriminate U]. injection U as <-.
  unfold is_digit in D. apply andb_true_iff in D. destruct D as [D1 D2]. apply Z.leb_le in D1, D2.
  rewrite app_length in L, HD. cbn [length] in L, HD. cbn [udec_fuel].
  destruct t as [|d t].
  - cbn [undec] in UT. injection UT as <-. destruct (Z.ltb_spec (0 * 10 + (c - 48)) 10); [|lia].
    cbn [app]. f_equal. lia.
  - assert (Hd : d <> 48) by (destruct HD as [HD|HD]; [exact HD|cbn in HD; lia]).
    assert (W : 1 <= w).
    { cbn [undec] in UT. destruct (is_digit d) eqn:Dd; [|discriminate UT].
      unfold is_digit in Dd. apply andb_true_iff in Dd. destruct Dd as [E1 E2]. apply Z.leb_le in E1, E2.
      apply undec_ge in UT; lia. }
    destruct (Z.ltb_spec (w * 10 + (c - 48)) 10); [lia|].
    replace ((w * 10 + (c - 48)) / 10) with w by (rewrite Z.add_comm, Z.div_add by lia; rewrite Z.div_small by lia; lia).
    replace ((w * 10 + (c - 48)) mod 10) with (c - 48) by (rewrite Z.add_comm, Z.mod_add by lia; rewrite Z.mod_small by lia; lia).
    rewrite (IH (d :: t) w); [f_equal; f_equal; lia|cbn [length] in *; lia|discriminate|exact UT|left; exact Hd].
Qed.

(* the value of a numeral without leading zeros bounds its length *)
Lemma undec_big l : forall a v, 1 <= a -> undec a l = Some v -> a * 10 ^ Z.of_nat (length l) <= v.
Proof.
  induction l as [|c l IH]; intros a v A H; cbn [undec] in H; [injection H as <-; cbn; lia|].
  destruct (is_digit c) eqn:D; [|discriminate H].
  unfold is_digit in D. apply andb_true_iff in D. destruct D as [D1 D2]. apply Z.leb_le in D1, D2.
  specialize (IH (a * 10 + (c - 48)) v ltac:(lia) H).
  cbn [length]. rewrite Nat2Z.inj_succ, Z.pow_succ_r by lia.
  pose proof (Z.pow_pos_nonneg 10 (Z.of_nat (length l)) ltac:(lia) ltac:(lia)). nia.
Qed.

Lemma strip s v : s <> [] -> undec 0 s = Some v -> v < 2 ^ 32 -> exists n, s = repeat 48 n ++ udec v.
Proof.
  intros N U B. induction s as [|c s IH]; [elim N; reflexivity|].
  destruct (Z.eq_dec c 48) as [->|NC].
  - destruct s as [|d s].
    + cbn in U. injection U as <-. exists 0%nat. reflexivity.
    + destruct IH as (n & E); [discriminate|exact U|]. exists (S n). cbn [repeat app]. f_equal. exact E.
  - exists 0%nat. cbn [repeat app]. symmetry. unfold udec.
    apply udec_unique; [|discriminate|exact U|left; exact NC].
    cbn [undec] in U. destruct (is_digit c) eqn:D; [|discriminate U].
    unfold is_digit in D. apply andb_true_iff in D. destruct D as [D1 D2]. apply Z.leb_le in D1, D2.
    apply undec_big in U; [|lia]. cbn [length].
    destruct (Nat.le_gt_cases (S (length s)) 20) as [|G]; [assumption|exfalso].
    assert (10 ^ 20 <= 10 ^ Z.of_nat (length s)) by (apply Z.pow_le_mono_r; lia).
    assert (2 ^ 32 < 10 ^ 20) by reflexivity. nia.
Qed.

(* C174: a code of digits without leading zeros, below 2^32, is sent to the helper as the number it denotes, with the
   number, password, name and key given; different codes of this kind are different requests. A request is only
   made of such a code, possibly with zeros in front. Not proved, because false: that the code typed, however
   written, is the one verified. *)
Theorem C174_code_partial : forall number pass name sig,
  (forall v, 0 <= v < 2 ^ 32 -> length sig = 52%nat ->
    verify_request number pass name sig (udec v) = Ok (mkVreq number v sig pass name)) /\
  (forall code q, verify_request number pass name sig code = Ok q ->
    exists n, code = repeat 48 n ++ udec (v_code q) /\ 0 <= v_code q < 2 ^ 32 /\
      v_number q = number /\ v_pass q = pass /\ v_name q = name).
Proof.
  intros number pass name sig. split.
  - intros v B L. unfold verify_request, parse_u32.
    destruct (udec v) as [|c t] eqn:E; [elim (udec_ne v E)|]. rewrite <- E, undec_udec by lia.
    destruct (Z.ltb_spec v (2 ^ 32)); [|lia]. cbn [bind].
    rewrite L. cbn [Nat.sub zeros repeat]. rewrite app_nil_r, firstn_all2 by (rewrite L; apply le_n). reflexivity.
  - intros code q H. unfold verify_request, parse_u32 in H. destruct code as [|c t] eqn:E; [discriminate H|]. rewrite <- E in *.
    destruct (undec 0 code) as [v|] eqn:U; [|discriminate H].
    destruct (Z.ltb_spec v (2 ^ 32)) as [B|]; [|discriminate H]. cbn [bind] in H. injection H as <-.
    cbn [v_code v_number v_pass v_name].
    destruct (strip code v) as (n & Ec); [rewrite E; discriminate|exact U|exact B|].
    exists n. split; [exact Ec|]. split; [|auto]. split; [exact (undec_ge _ 0 _ ltac:(lia) U)|exact B].
Qed.
Print Assumptions C174_code_partial.

(* the code as it is written in the message, 123-456, is refused, and codes that differ only in a zero in front
   are the same request *)
Theorem C174_code_refuted :
  (exists e, verify_request [] [] [] [] [49;50;51;45;52;53;54] = Err e) /\
  (exists a b q, a <> b /\ length a = 6%nat /\ verify_request [] [] [] [] a = Ok q /\ verify_request [] [] [] [] b = Ok q).
Proof.
  split; [eexists; reflexivity|]. exists [48;49;50;51;52;53], [49;50;51;52;53]. eexists.
  split; [discriminate|]. split; [reflexivity|]. split; vm_compute; reflexivity.
Qed.
Print Assumptions C174_code_refuted.

Example C174_ex : verify_request [43;49] [112] [110] (repeat 7 52) code1 = Ok (mkVreq [43;49] 123456 (repeat 7 52) [112] [110]) /\
  udec 123456 = code1.
Proof. split; vm_compute; reflexivity. Qed.

(* ---- C175: registered means an identifier was given ---- *)

Lemma dec_array_nums n : forall id, length id = n -> wfb id -> dec_array n (map JNum id) = Ok id.
Proof.
  induction n as [|n IH]; intros id L W; destruct id as [|b id]; try discriminate L; [reflexivity|].
  inversion W as [|? ? B W']; subst. cbn [map dec_array dec_u8]. unfold isbyte in B.
  destruct (Z.leb_spec 0 b); [|lia]. destruct (Z.ltb_spec b 256); [|lia]. cbn [andb bind].
  rewrite IH; [reflexivity|injection L as L; exact L|exact W'].
Qed.

Definition bool_or_absent (l : list (bytes * json)) : Prop :=
  member n_capable l = None \/ exists b, member n_capable l = Some (JBool b).

(* the 16 bytes the helper answers are the identifier registered: its text is in canonical form and has these
   digits. Not proved, because false: registered only if the helper answered an identifier. *)
Theorem C175_registered_partial : forall answer number pass name sig v l id,
  0 <= v < 2 ^ 32 -> length sig = 52%nat ->
  answer (mkVreq number v sig pass name) = JObj l -> member n_uuid l = Some (JArr (map JNum id)) -> bool_or_absent l ->
  length id = 16%nat -> wfb id ->
  exists u, CrayfishRegisterWithCode answer number pass name sig (udec v) = Ok u /\ uuid_form u /\ undash u = hex id.
Proof.
  intros answer number pass name sig v l id B S A U Cp L W.
  destruct (C52_uuid_form id W L) as (u & E & F). exists u. split; [|split; [exact F|exact (uuid_undash id W L u E)]].
  unfold CrayfishRegisterWithCode. rewrite (proj1 (C174_code_partial number pass name sig) v B S). cbn [bind].
  rewrite A. unfold dec_verify. rewrite U, (dec_array_nums 16 id L W). cbn [bind].
  destruct Cp as [->|(b & ->)]; exact E.
Qed.
Print Assumptions C175_registered_partial.

(* any other answer than an object or null fails, as does an identifier written as a text *)
Theorem C175_refused : forall answer number pass name sig code u,
  CrayfishRegisterWithCode answer number pass name sig code = Ok u ->
  exists q, verify_request number pass name sig code = Ok q /\
    (answer q = JNull \/ exists l, answer q = JObj l /\
      (member n_uuid l = None \/ member n_uuid l = Some JNull \/ exists a, member n_uuid l = Some (JArr a))).
Proof.
  intros answer number pass name sig code u H. unfold CrayfishRegisterWithCode in H.
  destruct (verify_request number pass name sig code) as [q| |]; try discriminate H. exists q. split; [reflexivity|].
  cbn [bind] in H. destruct (answer q) as [|b|n| |s|a|l] eqn:A; try discriminate H; [left; reflexivity|].
  right. exists l. split; [reflexivity|]. unfold dec_verify in H.
  destruct (member n_uuid l) as [[| | | | |a| ]|]; try discriminate H; eauto.
Qed.
Print Assumptions C175_refused.

(* an answer that reports an error and no identifier registers the identifier of zeros *)
Theorem C175_registered_refuted : exists answer l u,
  (forall q, answer q = JObj l) /\ member n_uuid l = None /\ l <> [] /\
  CrayfishRegisterWithCode answer [] [] [] [] code1 = Ok u /\ undash u = repeat 48 32.
Proof.
  exists (fun _ => JObj [([101;114;114;111;114], JStr [110;111])]). do 2 eexists.
  split; [intros q; reflexivity|]. split; [reflexivity|]. split; [discriminate|].
  split; vm_compute; reflexivity.
Qed.
Print Assumptions C175_registered_refuted.

(* so does every list that is not 16 bytes: what is missing or null counts as zero, what is too much is left out *)
Lemma dec_array_some n : forall a, Forall (fun x => match x with Some b => isbyte b | None => True end) a ->
  dec_array n (map (fun x => match x with Some b => JNum b | None => JNull end) a) =
  Ok (firstn n (map (fun x => match x with Some b => b | None => 0 end) a ++ repeat 0 n)).
Proof.
  induction n as [|n IH]; intros a W; [destruct a; reflexivity|]. destruct W as [|x a B W].
  - cbn [map dec_array]. rewrite app_nil_l, firstn_all2; [reflexivity|rewrite repeat_length; lia].
  - cbn [map dec_array app firstn].
    assert (E : dec_u8 (match x with Some b => JNum b | None => JNull end) = Ok match x with Some b => b | None => 0 end).
    { destruct x as [b|]; [|reflexivity]. unfold dec_u8. unfold isbyte in B.
      destruct (Z.leb_spec 0 b); [|lia]. destruct (Z.ltb_spec b 256); [|lia]. reflexivity. }
    rewrite E. cbn [bind]. rewrite (IH a W). cbn [bind]. f_equal. f_equal.
    rewrite !firstn_app. f_equal.
    replace (repeat 0 (S n)) with (repeat 0 n ++ [0]) by (symmetry; apply (repeat_cons n 0)).
    rewrite firstn_app, repeat_length. generalize (length (map (fun x => match x with Some b => b | None => 0 end) a)) as k. intros k.
    replace (n - k - n)%nat with 0%nat by lia.
    cbn [firstn]. rewrite app_nil_r. reflexivity.
Qed.
Theorem C175_filled : forall answer number pass name sig v l a,
  0 <= v < 2 ^ 32 -> length sig = 52%nat ->
  answer (mkVreq number v sig pass name) = JObj l ->
  member n_uuid l = Some (JArr (map (fun x => match x with Some b => JNum b | None => JNull end) a)) -> bool_or_absent l ->
  Forall (fun x => match x with Some b => isbyte b | None => True end) a ->
  exists u, CrayfishRegisterWithCode answer number pass name sig (udec v) = Ok u /\ uuid_form u /\
    undash u = hex (firstn 16 (map (fun x => match x with Some b => b | None => 0 end) a ++ repeat 0 16)).
Proof.
  intros answer number pass name sig v l a B S A U Cp W.
  set (id := firstn 16 (map (fun x => match x with Some b => b | None => 0 end) a ++ repeat 0 16)).
  assert (L : length id = 16%nat) by (unfold id; rewrite firstn_length, app_length, repeat_length; lia).
  assert (Wi : wfb id).
  { unfold id. apply Forall_forall. intros x Hx.
    assert (Hin : In x (map (fun x => match x with Some b => b | None => 0 end) a ++ repeat 0 16)) by (rewrite <- (firstn_skipn 16); apply in_or_app; left; exact Hx).
    apply in_app_or in Hin. destruct Hin as [Hin|Hin].
    - apply in_map_iff in Hin. destruct Hin as (y & <- & Hy). rewrite Forall_forall in W. specialize (W y Hy). destruct y; [exact W|unfold isbyte; lia].
    - apply repeat_spec in Hin. subst x. unfold isbyte. lia. }
  destruct (C52_uuid_form id Wi L) as (u & E & F). exists u. split; [|split; [exact F|exact (uuid_undash id Wi L u E)]].
  unfold CrayfishRegisterWithCode. rewrite (proj1 (C174_code_partial number pass name sig) v B S). cbn [bind].
  rewrite A. unfold dec_verify. rewrite U, (dec_array_some 16 a W). fold id. cbn [bind].
  destruct Cp as [->|(b & ->)]; exact E.
Qed.
Print Assumptions C175_filled.

Example C175_ex : CrayfishRegisterWithCode ok_answer [43;49] [112] [110] (repeat 7 52) code1 = Ok u_new /\
  CrayfishRegisterWithCode (fun _ => JObj [(n_uuid, JStr u_new)]) [43;49] [112] [110] (repeat 7 52) code1 = Err EOther.
Proof. split; vm_compute; reflexivity. Qed.

(* ---- C176: nothing the helper sends ends the process ---- *)

(* a message whose part named by its type is there and has a type *)
Definition complete (m : wmsg) : Prop :=
  (m_type m = Some 1 -> exists t, m_request m = Some (Some t)) /\
  (m_type m = Some 2 -> exists t v, m_response m = Some (Some t, v)).

(* a complete message does no harm, and what a waiting caller gets is an answer of type 2 or more, unchanged. Not proved,
   because false: the same of every message. *)
Theorem C176_messages_partial : forall waiting m, complete m ->
  exists r, handle_message waiting m = Ok r /\
    (forall a, r = Some a <-> waiting = true /\ m_type m = Some 2 /\
       exists t v, m_response m = Some (Some t, v) /\ 2 <= t /\ a = (t, v)).
Proof.
  intros waiting m [R1 R2]. unfold handle_message.
  destruct (m_type m) as [t|] eqn:T.
  - destruct (Z.eqb_spec t 1) as [->|N1].
    + destruct (R1 eq_refl) as (x & ->). eexists. split; [reflexivity|].
      intros a. split; [discriminate|]. intros (_ & E & _). discriminate E.
    + destruct (Z.eqb_spec t 2) as [->|N2].
      * destruct (R2 eq_refl) as (x & v & E). rewrite E. eexists. split; [reflexivity|].
        intros a. destruct waiting; cbn [andb].
        -- destruct (Z.ltb_spec 1 x).
           ++ split; [intros X; injection X as <-; split; [reflexivity|]; split; [reflexivity|]; exists x, v; repeat split; lia|].
              intros (_ & _ & y & w & F & _ & ->). congruence.
           ++ split; [discriminate|]. intros (_ & _ & y & w & F & G & _). injection F as <- <-. lia.
        -- split; [discriminate|]. intros (F & _). discriminate F.
      * eexists. split; [reflexivity|]. intros a. split; [discriminate|]. intros (_ & E & _). congruence.
  - eexists. split; [reflexivity|]. intros a. split; [discriminate|]. intros (_ & E & _). discriminate E.
Qed.
Print Assumptions C176_messages_partial.

(* {"type":1}, {"type":2} and {"type":2,"response":{"message":…}} end the process *)
Theorem C176_messages_refuted : handle_message true (mkW (Some 1) None None) = Panic /\
  handle_message false (mkW (Some 2) None None) = Panic /\
  forall v waiting, handle_message waiting (mkW (Some 2) None (Some (None, v))) = Panic.
Proof. split; [reflexivity|]. split; [reflexivity|]. intros v []; reflexivity. Qed.
Print Assumptions C176_messages_refuted.

Example C176_ex : complete (mkW (Some 2) None (Some (Some 3, JNull))) /\
  handle_message true (mkW (Some 2) None (Some (Some 3, JNull))) = Ok (Some (3, JNull)) /\
  handle_message true (mkW (Some 2) None (Some (Some 1, JNull))) = Ok None /\
  handle_message true (mkW None None None) = Ok None.
Proof. repeat split; [discriminate|]. intros _. do 2 eexists. reflexivity. Qed.
