(* C91-C95: what accepted changes to groups of the second version do. *)
From Coq Require Import ZArith List Lia Bool.
From Verif Require Import Bytes Res Encodings GroupsV2 GroupsV2Proofs PropGroupsV2.
Import ListNotations.
Open Scope Z_scope.

(* a change that is accepted went through its parts *)
Lemma modify_parts zk v now seal u pw0 c g g' : modify zk v now seal u pw0 c g = (g', Ok tt) ->
  exists pw adds invited asked g1,
    ValidateAddMember zk v g (c_add c) = Ok adds /\ ValidateAddMembersPendingProfileKey u g (c_invite c) = Ok invited /\
    ValidateAddMembersPendingAdminApproval zk v now u pw g (c_ask c) = Ok asked /\
    run (fun x => x) (steps zk v u pw c adds invited asked) g = (g1, Ok tt) /\
    g' = w_rev (c_rev c) g1 /\ ValidateFinalGroupState v g' = Ok tt.
Proof.
  unfold modify. destruct (if zlen pw0 =? 0 then Ok [] else dec64 pw0) as [pw|e|]; try discriminate.
  destruct (ValidateAddMember zk v g (c_add c)) as [adds|e|]; try discriminate.
  destruct (ValidateAddMembersPendingProfileKey u g (c_invite c)) as [invited|e|]; try discriminate.
  destruct (ValidateAddMembersPendingAdminApproval zk v now u pw g (c_ask c)) as [asked|e|] eqn:A; try discriminate.
  destruct (run (fun x => x) (steps zk v u pw c adds invited asked) g) as [g1 [[]|e|]] eqn:R; try discriminate.
  destruct (getSourceUuid u g1); try discriminate. destruct seal as [[]|e|]; try discriminate.
  intros H. assert (E : w_rev (c_rev c) g1 = g') by congruence.
  exists pw, adds, invited, asked, g1. rewrite <- E. repeat split; auto. congruence.
Qed.

(* ---------- C92: invitations ---------- *)
(* No invitation is ever accepted, whatever the limits: the validator wants no profile key in it, the action wants
   one. *)
Theorem C92_no_invitation_is_accepted : forall zk v now seal u pw0 c g x, c_invite c <> [] ->
  snd (modify zk v now seal u pw0 c g) <> Ok x.
Proof.
  intros zk v now seal u pw0 c g [] NE H. destruct (modify zk v now seal u pw0 c g) as [g' r] eqn:M. cbn [snd] in H. subst r.
  apply modify_parts in M. destruct M as (pw & adds & invited & asked & g1 & _ & V & _ & R & _).
  apply invited_none in V. destruct V as [L N].
  assert (NE' : invited <> []) by (intros ->; destruct (c_invite c); [now destruct NE|discriminate L]).
  apply (f_equal snd) in R. cbn [snd] in R. revert R.
  apply (run_fails (fun x => x) (firstn 4 (steps zk v u pw c adds invited asked))
    (fun im => ApplyAddMembersPendingProfileKeys u im invited) (skipn 5 (steps zk v u pw c adds invited asked))).
  intros im y r E. apply (f_equal snd) in E. now apply (invite_check_fails u im invited y N NE') in E.
Qed.
(* the claim: an administrator may invite someone who is in none of the lists *)
Theorem C92_administrator_invites_refuted : exists zk v now u c g n, good v g /\ administrator u g /\ c_invite c = [Some n] /\
  n_uid n <> [] /\ n_role n = R_DEFAULT /\ n_pkey n = [] /\ n_pres n = [] /\ ~ In (n_uid n) (m_ids g ++ q_ids g ++ r_ids g) /\
  snd (modify zk v now (Ok tt) u [] c g) = Err EBadRequest.
Proof.
  exists zk0, v0, 0, (user alice), (mkActions 5 [] [] [] [] [Some (mkNew carol R_DEFAULT [] [])] [] [] None None None None None None [] [] [] None None None), g0, (mkNew carol R_DEFAULT [] []).
  split; [apply C48_validated; vm_compute; reflexivity|]. split; [apply g0_admin|]. split; [reflexivity|]. split; [discriminate|].
  split; [reflexivity|]. split; [reflexivity|]. split; [reflexivity|]. split; [|vm_compute; reflexivity].
  apply mem_notin. vm_compute. reflexivity.
Qed.

(* What the action alone (ApplyAddMembersPendingProfileKeys is exported) does: it takes invitations exactly by somebody
   who may invite, of people who are neither members nor invited, each once, with a known role, and appends them. *)
Lemma invite_check_ok admin l : forall seen, invite_check admin seen l = Ok tt <->
  (forall n, In n l -> n_uid n <> [] /\ n_pkey n <> [] /\ n_pres n <> [] /\ n_role n <> R_UNKNOWN /\ (n_role n = R_ADMIN -> admin = true) /\
     ~ In (n_uid n) seen) /\ NoDup (map n_uid l).
Proof.
  assert (Z0 : forall b : bytes, (zlen b =? 0) = false <-> b <> []).
  { intros b. unfold zlen. rewrite Z.eqb_neq. destruct b; cbn [length]; split; intros H; try congruence; try lia. }
  induction l as [|n l IH]; intros seen; cbn [invite_check map].
  - split; [intros _; split; [intros n []|constructor]|reflexivity].
  - destruct (zlen (n_uid n) =? 0) eqn:E1.
    { split; [discriminate|]. intros [H _]. destruct (H n (or_introl eq_refl)) as (U & _). apply Z0 in U. congruence. }
    destruct (zlen (n_pkey n) =? 0) eqn:E2.
    { split; [discriminate|]. intros [H _]. destruct (H n (or_introl eq_refl)) as (_ & U & _). apply Z0 in U. congruence. }
    destruct (zlen (n_pres n) =? 0) eqn:E3.
    { split; [discriminate|]. intros [H _]. destruct (H n (or_introl eq_refl)) as (_ & _ & U & _). apply Z0 in U. congruence. }
    destruct (Z.eqb_spec (n_role n) R_UNKNOWN) as [E4|E4].
    { split; [discriminate|]. intros [H _]. destruct (H n (or_introl eq_refl)) as (_ & _ & _ & U & _). contradiction. }
    destruct (Z.eqb_spec (n_role n) R_ADMIN) as [E5|E5]; destruct admin eqn:A; cbn [andb negb].
    2:{ split; [discriminate|]. intros [H _]. destruct (H n (or_introl eq_refl)) as (_ & _ & _ & _ & U & _). specialize (U E5). congruence. }
    all: destruct (mem (n_uid n) seen) eqn:E6;
      [split; [discriminate|]; intros [H _]; destruct (H n (or_introl eq_refl)) as (_ & _ & _ & _ & _ & U); apply mem_in in E6; contradiction|].
    all: rewrite IH; apply mem_notin in E6; apply Z0 in E1; apply Z0 in E2; apply Z0 in E3; split.
    all: try (intros [H D]; split;
      [intros m [<-|M]; [repeat split; auto; congruence|];
       destruct (H m M) as (? & ? & ? & ? & ? & F); repeat split; auto; intros F'; apply F; now right
      |constructor; [|exact D]; intros K; apply in_map_iff in K; destruct K as (m & E & M); destruct (H m M) as (_ & _ & _ & _ & _ & F);
       apply F; left; now symmetry]).
    all: intros [H D]; apply NoDup_cons_iff in D; destruct D as [D1 D2]; split; [|exact D2];
      intros m M; destruct (H m (or_intror M)) as (? & ? & ? & ? & ? & F); repeat split; auto;
      intros [F'|F']; [apply D1; rewrite F'; now apply in_map|now apply F].
Qed.
Theorem C92_action_alone : forall u im l g g', l <> [] ->
  (ApplyAddMembersPendingProfileKeys u im l g = (g', Ok tt) <->
   invite_allowed u im = Ok true /\ NoDup (map n_uid l) /\
   (forall n, In n l -> n_uid n <> [] /\ n_pkey n <> [] /\ n_pres n <> [] /\ n_role n <> R_UNKNOWN /\
      (n_role n = R_ADMIN -> is_admin u im = true) /\ ~ In (n_uid n) (m_ids g) /\ ~ In (n_uid n) (q_ids g)) /\
   exists s, source u g = Some s /\
     g' = w_pending (v_pending g ++ map (fun n => mkPending (n_uid n) (n_role n) (m_uuid s)) l) g).
Proof.
  intros u im l g g' NE. unfold ApplyAddMembersPendingProfileKeys. destruct l as [|n0 l0]; [now destruct NE|]. set (l := n0 :: l0) in *.
  unfold allowed. destruct (invite_allowed u im) as [[]|e|]; try (split; [intros H; congruence|intros (H & _); congruence]).
  pose proof (invite_check_ok (is_admin u im) l []) as IC.
  destruct (invite_check (is_admin u im) [] l) as [[]|e|].
  2,3: split; [intros H; congruence|intros (_ & D & H & _); exfalso;
    destruct IC as [_ IC]; assert (Q : (forall n, In n l -> n_uid n <> [] /\ n_pkey n <> [] /\ n_pres n <> [] /\ n_role n <> R_UNKNOWN /\
      (n_role n = R_ADMIN -> is_admin u im = true) /\ ~ In (n_uid n) []) /\ NoDup (map n_uid l))
      by (split; [intros n N; destruct (H n N) as (? & ? & ? & ? & ? & _); repeat split; auto|exact D]); specialize (IC Q); discriminate].
  destruct IC as [IC _]. destruct (IC eq_refl) as [IN D]. unfold refuse.
  destruct (existsb (fun n => mem (n_uid n) (m_ids g) || mem (n_uid n) (q_ids g)) l) eqn:X.
  { split; [intros H; congruence|]. intros (_ & _ & H & _). exfalso. apply existsb_exists in X. destruct X as (n & N & X).
    destruct (H n N) as (_ & _ & _ & _ & _ & H1 & H2). apply orb_prop in X. destruct X as [X|X]; apply mem_in in X; contradiction. }
  assert (OUT : forall n, In n l -> ~ In (n_uid n) (m_ids g) /\ ~ In (n_uid n) (q_ids g)).
  { intros n N. destruct (mem (n_uid n) (m_ids g) || mem (n_uid n) (q_ids g)) eqn:Y.
    - exfalso. assert (Z : existsb (fun n => mem (n_uid n) (m_ids g) || mem (n_uid n) (q_ids g)) l = true) by (apply existsb_exists; exists n; auto). congruence.
    - apply orb_false_iff in Y. destruct Y as [Y1 Y2]. split; now apply mem_notin. }
  split.
  - intros H. split; [reflexivity|]. split; [exact D|]. split.
    + intros n N. destruct (IN n N) as (? & ? & ? & ? & ? & _). destruct (OUT n N). repeat split; auto.
    + destruct (source u g) as [s|]; [|congruence]. exists s. split; [reflexivity|congruence].
  - intros (_ & _ & _ & s & -> & ->). reflexivity.
Qed.
Example C92_action_alone_example : let l := [mkNew carol R_DEFAULT [7] [8]] in
  snd (ApplyAddMembersPendingProfileKeys (user alice) g0 l g0) = Ok tt /\
  q_ids (fst (ApplyAddMembersPendingProfileKeys (user alice) g0 l g0)) = q_ids g0 ++ [carol] /\
  snd (ApplyAddMembersPendingProfileKeys (user alice) g0 l (fst (ApplyAddMembersPendingProfileKeys (user alice) g0 l g0))) = Err EBadRequest.
Proof. vm_compute. repeat split. Qed.
Print Assumptions C92_action_alone.

(* ---------- C91: the effects ---------- *)
(* the members an accepted change adds, as the verified presentations name them *)
Definition without {A} (f : A -> bytes) (ids : list bytes) (l : list A) : list A := filter (fun a => negb (mem (f a) ids)) l.
Record effects (zk : lib) (v : validator) (u : guser) (c : actions) (g g' : v2) (adds : list newmember) : Prop := mkEffects {
  e_adds : Forall2 (added_by zk v g) (c_add c) adds;
  e_key : v_key g' = v_key g;
  e_rev : v_rev g' = c_rev c;
  e_title : v_title g' = opt (c_title c) (v_title g);
  e_avatar : v_avatar g' = opt (c_avatar c) (v_avatar g);
  e_descr : v_descr g' = opt (c_descr c) (v_descr g);
  e_pass : v_pass g' = opt (c_pass c) (v_pass g);
  e_annc : v_annc g' = opt (c_annc c) (v_annc g);
  e_acc : exists a, v_acc g = Some a /\
          v_acc g' = Some (mkAccess (opt (c_attrs c) (a_attrs a)) (opt (c_mems c) (a_members a)) (opt (c_link c) (a_link a)));
  (* the members: those that were, those added, without those removed, and those approved *)
  e_members : m_ids g' = without (fun x => x) (c_del c) (m_ids g ++ map n_uid adds) ++ map fst (c_approve c);
  (* roles: as the change says, and otherwise as before *)
  e_roles : forall x r, In (x, r) (c_roles c) -> exists m, In m (v_members g') /\ m_uuid m = x /\ m_role m = r;
  e_keep : forall m, In m (v_members g) -> ~ In (m_uuid m) (c_del c) -> ~ In (m_uuid m) (map fst (c_roles c)) ->
           exists m', In m' (v_members g') /\ m_uuid m' = m_uuid m /\ m_role m' = m_role m /\
                      (m_uuid m <> u_cipher u \/ c_pkeys c = [] -> m_pkey m' = m_pkey m);
  e_approved : forall x r, In (x, r) (c_approve c) -> In x (r_ids g) /\ exists m, In m (v_members g') /\ m_uuid m = x /\ m_role m = r;
  e_pending : v_pending g' = without q_uuid (c_uninvite c) (without q_uuid (map n_uid adds) (v_pending g));
  e_asking : v_asking g' = without r_uuid (map fst (c_approve c)) (without r_uuid (c_unask c) (without r_uuid (map n_uid adds) (v_asking g))) }.

Lemma without_ids {A} (f : A -> bytes) ids l : map f (without f ids l) = without (fun x => x) ids (map f l).
Proof. apply filter_map_ids. Qed.
Lemma rekey_id ps m : m_uuid (rekey ps m) = m_uuid m.
Proof. unfold rekey. destruct (lookup_key _ _); reflexivity. Qed.
Lemma rekey_role ps m : m_role (rekey ps m) = m_role m.
Proof. unfold rekey. destruct (lookup_key _ _); reflexivity. Qed.

Ltac proj := cbn [w_rev w_annc w_descr w_pass w_asking w_members w_casking w_acc w_avatar w_title w_cpending w_pending
  v_key v_rev v_annc v_title v_avatar v_descr v_pass v_acc v_members v_pending v_asking v_casking v_cpending].
(* An accepted change does what it names, all of it and nothing else. *)
Theorem C91_effects : forall zk v now seal u pw0 c g g', modify zk v now seal u pw0 c g = (g', Ok tt) ->
  exists adds, effects zk v u c g g' adds.
Proof.
  intros zk v now seal u pw0 c g g' M. pose proof M as M0. apply modify_parts in M. destruct M as (pw & adds & invited & asked & g1 & VA & VI & _ & R & -> & F).
  assert (I0 : invited = []).
  { apply invited_none in VI. destruct VI as [L _]. destruct (c_invite c) as [|n l] eqn:C; [now destruct invited|].
    exfalso. apply (C92_no_invitation_is_accepted zk v now seal u pw0 c g tt); [congruence|]. now rewrite M0. }
  subst invited. exists adds. unfold steps in R.
  apply run_ok in R. destruct R as (h1 & S1 & R). apply ok_add in S1.
  apply run_ok in R. destruct R as (h2 & S2 & R). apply ok_del in S2. destruct S2 as [S2 D2].
  apply run_ok in R. destruct R as (h3 & S3 & R). apply ok_roles in S3. destruct S3 as [S3 D3].
  apply run_ok in R. destruct R as (h4 & S4 & R). apply ok_pkeys in S4. destruct S4 as (ps & D4 & S4).
  apply run_ok in R. destruct R as (h5 & S5 & R). cbn [ApplyAddMembersPendingProfileKeys] in S5. injection S5 as S5.
  apply run_ok in R. destruct R as (h6 & S6 & R). apply ok_uninvite in S6.
  apply run_ok in R. destruct R as (h7 & S7 & R). apply ok_accept in S7. destruct S7 as (cp & S7).
  apply run_ok in R. destruct R as (h8 & S8 & R). apply ok_title in S8.
  apply run_ok in R. destruct R as (h9 & S9 & R). apply ok_avatar in S9.
  apply run_ok in R. destruct R as (h10 & S10 & R). apply ok_timer in S10.
  apply run_ok in R. destruct R as (h11 & S11 & R). apply ok_attrs in S11. destruct S11 as [S11 _].
  apply run_ok in R. destruct R as (h12 & S12 & R). apply ok_mems in S12. destruct S12 as [S12 _].
  apply run_ok in R. destruct R as (h13 & S13 & R). apply ok_link in S13. destruct S13 as [S13 _].
  apply run_ok in R. destruct R as (h14 & S14 & R). apply ok_ask in S14.
  apply run_ok in R. destruct R as (h15 & S15 & R). apply ok_unask in S15.
  apply run_ok in R. destruct R as (h16 & S16 & R). apply ok_approve in S16. destruct S16 as (ks & D16 & S16 & E16).
  apply run_ok in R. destruct R as (h17 & S17 & R). apply ok_pass in S17.
  apply run_ok in R. destruct R as (h18 & S18 & R). apply ok_descr in S18.
  apply run_ok in R. destruct R as (h19 & S19 & R). apply ok_annc in S19. cbn [run] in R.
  assert (S20 : g1 = h19) by congruence. clear R. symmetry in S5.
  (* the members at each stage *)
  set (m1 := v_members g ++ map (newm (v_rev g)) adds).
  set (m2 := without m_uuid (c_del c) m1).
  set (m4 := map (rekey ps) (set_roles (c_roles c) m2)).
  set (ap := map (fun xk => mkMember (fst (fst xk)) (snd (fst xk)) (snd xk) ((v_rev h15 + 1) mod 2 ^ 32)) (combine (c_approve c) ks)).
  assert (M2 : v_members h2 = m2) by (rewrite S2; proj; rewrite S1; reflexivity).
  assert (M4 : v_members h4 = m4) by (rewrite S4; proj; rewrite S3; proj; now rewrite M2).
  assert (M15 : v_members h15 = m4) by (rewrite S15; proj; rewrite S14; proj; rewrite S13; proj; rewrite S12; proj; rewrite S11; proj; rewrite S10; proj; rewrite S9; proj; rewrite S8; proj; rewrite S7; proj; rewrite S6; proj; rewrite S5; proj; exact M4).
  assert (M19 : v_members (w_rev (c_rev c) g1) = m4 ++ ap).
  { proj; rewrite S20; proj; rewrite S19; proj; rewrite S18; proj; rewrite S17; proj; rewrite S16; proj. now rewrite M15. }
  assert (IDS4 : map m_uuid m4 = without (fun x => x) (c_del c) (m_ids g ++ map n_uid adds)).
  { unfold m4. rewrite map_map. rewrite (map_ext _ m_uuid) by (intros; apply rekey_id). rewrite set_roles_ids. unfold m2. rewrite without_ids.
    unfold m1. rewrite map_app. f_equal. f_equal. now rewrite map_map. }
  assert (APf : map m_uuid ap = map fst (c_approve c)).
  { unfold ap. rewrite map_map. cbn [m_uuid]. clear - D16. revert ks D16. induction (c_approve c) as [|[x r] t IH]; intros [|k ks] L; try discriminate; [reflexivity|].
    cbn [combine map fst snd]. f_equal. apply IH. now injection L. }
  assert (APm : forall x r, In (x, r) (c_approve c) -> exists m, In m ap /\ m_uuid m = x /\ m_role m = r).
  { unfold ap. clear - D16. revert ks D16. induction (c_approve c) as [|[x r] t IH]; intros [|k ks] L y s I; try discriminate; [destruct I|].
    cbn [combine map fst snd]. destruct I as [E|I].
    - eexists. split; [now left|]. cbn [m_uuid m_role]. split; congruence.
    - destruct (IH ks ltac:(now injection L) y s I) as (m & J & Q). exists m. split; [now right|exact Q]. }
  assert (ND2 : NoDup (map m_uuid m2)).
  { apply C48_validated in F. apply gd_once in F. rewrite M19, map_app in F. rewrite !nodup_app_iff in F. destruct F as ((F & _) & _).
    rewrite IDS4 in F. unfold m2. rewrite without_ids. unfold m1. rewrite map_app, map_map. exact F. }
  assert (RF := roles_ok_facts _ _ _ D3). destruct RF as (RN & _ & RI).
  assert (IN4 : forall m, In m m2 -> In (rekey ps (mkMember (m_uuid m) (opt (lookup_role (m_uuid m) (c_roles c)) (m_role m)) (m_pkey m) (m_joined m))) m4).
  { intros m I. unfold m4. apply in_map. rewrite (set_roles_nodup _ _ ND2). apply in_map_iff. exists m. auto. }
  constructor.
  - now apply adds_ok.
  - proj; rewrite S20; proj; rewrite S19; proj; rewrite S18; proj; rewrite S17; proj; rewrite S16; proj; rewrite S15; proj; rewrite S14; proj; rewrite S13; proj; rewrite S12; proj; rewrite S11; proj; rewrite S10; proj; rewrite S9; proj; rewrite S8; proj; rewrite S7; proj; rewrite S6; proj; rewrite S5; proj; rewrite S4; proj; rewrite S3; proj; rewrite S2; proj; rewrite S1; proj; reflexivity.
  - reflexivity.
  - proj; rewrite S20; proj; rewrite S19; proj; rewrite S18; proj; rewrite S17; proj; rewrite S16; proj; rewrite S15; proj; rewrite S14; proj; rewrite S13; proj; rewrite S12; proj; rewrite S11; proj; rewrite S10; proj; rewrite S9; proj; rewrite S8; proj; rewrite S7; proj; rewrite S6; proj; rewrite S5; proj; rewrite S4; proj; rewrite S3; proj; rewrite S2; proj; rewrite S1; proj; reflexivity.
  - proj; rewrite S20; proj; rewrite S19; proj; rewrite S18; proj; rewrite S17; proj; rewrite S16; proj; rewrite S15; proj; rewrite S14; proj; rewrite S13; proj; rewrite S12; proj; rewrite S11; proj; rewrite S10; proj; rewrite S9; proj; rewrite S8; proj; rewrite S7; proj; rewrite S6; proj; rewrite S5; proj; rewrite S4; proj; rewrite S3; proj; rewrite S2; proj; rewrite S1; proj; reflexivity.
  - proj; rewrite S20; proj; rewrite S19; proj; rewrite S18; proj; rewrite S17; proj; rewrite S16; proj; rewrite S15; proj; rewrite S14; proj; rewrite S13; proj; rewrite S12; proj; rewrite S11; proj; rewrite S10; proj; rewrite S9; proj; rewrite S8; proj; rewrite S7; proj; rewrite S6; proj; rewrite S5; proj; rewrite S4; proj; rewrite S3; proj; rewrite S2; proj; rewrite S1; proj; reflexivity.
  - proj; rewrite S20; proj; rewrite S19; proj; rewrite S18; proj; rewrite S17; proj; rewrite S16; proj; rewrite S15; proj; rewrite S14; proj; rewrite S13; proj; rewrite S12; proj; rewrite S11; proj; rewrite S10; proj; rewrite S9; proj; rewrite S8; proj; rewrite S7; proj; rewrite S6; proj; rewrite S5; proj; rewrite S4; proj; rewrite S3; proj; rewrite S2; proj; rewrite S1; proj; reflexivity.
  - proj; rewrite S20; proj; rewrite S19; proj; rewrite S18; proj; rewrite S17; proj; rewrite S16; proj; rewrite S15; proj; rewrite S14; proj; rewrite S13; proj; rewrite S12; proj; rewrite S11; proj; rewrite S10; proj; rewrite S9; proj; rewrite S8; proj; rewrite S7; proj; rewrite S6; proj; rewrite S5; proj; rewrite S4; proj; rewrite S3; proj; rewrite S2; proj; rewrite S1; proj; reflexivity.
  - apply C48_validated in F. apply gd_access in F. destruct F as (a & A & _).
    assert (E : v_acc (w_rev (c_rev c) g1) = map_acc (fun a => mkAccess (opt (c_attrs c) (a_attrs a)) (opt (c_mems c) (a_members a)) (opt (c_link c) (a_link a))) (v_acc g)).
    { proj; rewrite S20; proj; rewrite S19; proj; rewrite S18; proj; rewrite S17; proj; rewrite S16; proj; rewrite S15; proj; rewrite S14; proj; rewrite S13; proj; rewrite S12; proj; rewrite S11; proj; rewrite S10; proj; rewrite S9; proj; rewrite S8; proj; rewrite S7; proj; rewrite S6; proj; rewrite S5; proj; rewrite S4; proj; rewrite S3; proj; rewrite S2; proj; rewrite S1; proj.
      destruct (v_acc g); reflexivity. }
    rewrite A in E. destruct (v_acc g) as [b|]; [|discriminate]. exists b. split; [reflexivity|]. rewrite A. exact E.
  - unfold m_ids at 1. rewrite M19, map_app, IDS4, APf. reflexivity.
  - intros x r I. destruct (RI x r I) as [J _]. unfold m_ids in J. rewrite M2 in J. apply in_map_iff in J. destruct J as (m & U & J).
    apply IN4 in J. eexists. split; [rewrite M19; apply in_or_app; left; exact J|]. rewrite rekey_id, rekey_role. cbn [m_uuid m_role].
    split; [exact U|]. rewrite U, (lookup_role_in x r _ RN I). reflexivity.
  - intros m I ND NR. assert (J : In m m2).
    { unfold m2, without. apply filter_In. split; [unfold m1; apply in_or_app; now left|]. now apply negb_true_iff, mem_notin. }
    apply IN4 in J. eexists. split; [rewrite M19; apply in_or_app; left; exact J|]. rewrite rekey_id, rekey_role. cbn [m_uuid m_role].
    split; [reflexivity|]. rewrite (lookup_role_none _ _ NR). split; [reflexivity|]. intros K. unfold rekey. cbn [m_uuid opt].
    destruct (lookup_key (m_uuid m) ps) as [k|] eqn:L; [|reflexivity]. exfalso. destruct K as [K|K].
    + apply K. apply (presentations_mine u _ _ _ _ _ D4 _ _ L).
    + rewrite K in D4. cbn [presentations] in D4. injection D4 as <-. discriminate.
  - intros x r I. split.
    + apply E16 in I. unfold r_ids in *.
      assert (Q : v_asking h15 = without r_uuid (c_unask c) (without r_uuid (map n_uid adds) (v_asking g))) by (rewrite S15; proj; rewrite S14; proj; rewrite S13; proj; rewrite S12; proj; rewrite S11; proj; rewrite S10; proj; rewrite S9; proj; rewrite S8; proj; rewrite S7; proj; rewrite S6; proj; rewrite S5; proj; rewrite S4; proj; rewrite S3; proj; rewrite S2; proj; rewrite S1; proj; reflexivity).
      rewrite Q in I. apply in_map_iff in I. destruct I as (a & <- & I). apply filter_In in I. destruct I as [I _]. apply filter_In in I. apply in_map. tauto.
    + destruct (APm x r I) as (m & J & Q). exists m. split; [rewrite M19; apply in_or_app; now right|exact Q].
  - proj; rewrite S20; proj; rewrite S19; proj; rewrite S18; proj; rewrite S17; proj; rewrite S16; proj; rewrite S15; proj; rewrite S14; proj; rewrite S13; proj; rewrite S12; proj; rewrite S11; proj; rewrite S10; proj; rewrite S9; proj; rewrite S8; proj; rewrite S7; proj; rewrite S6; proj; rewrite S5; proj; rewrite S4; proj; rewrite S3; proj; rewrite S2; proj; rewrite S1; proj; reflexivity.
  - proj; rewrite S20; proj; rewrite S19; proj; rewrite S18; proj; rewrite S17; proj; rewrite S16; proj; rewrite S15; proj; rewrite S14; proj; rewrite S13; proj; rewrite S12; proj; rewrite S11; proj; rewrite S10; proj; rewrite S9; proj; rewrite S8; proj; rewrite S7; proj; rewrite S6; proj; rewrite S5; proj; rewrite S4; proj; rewrite S3; proj; rewrite S2; proj; rewrite S1; proj; reflexivity.
Qed.
(* Alice adds Carol, removes Bob and changes the access of members, all in one change. *)
Example C91_example :
  modify zk0 v0 0 (Ok tt) (user alice) [] (mkActions 6 [mkAdding (Some (mkNew [] R_ADMIN [] [17])) false] [bob] [] [] [] [] []
    None None None None (Some A_ADMIN) None [] [] [] None (Some [100]) None) g0 =
  (mkV2 key0 6 false [116] [] [100] [] (Some (mkAccess A_MEMBER A_ADMIN A_UNSAT))
    [mkMember alice R_ADMIN [5] 0; mkMember carol R_ADMIN [17; 17] 5] [] [] [] [], Ok tt).
Proof. vm_compute. reflexivity. Qed.

(* ---------- C93: accepting an invitation ---------- *)
(* Nobody becomes a member by accepting: the members after an accepted change are those before, those added and
   those approved. *)
Theorem C93_accepting_makes_no_member : forall zk v now seal u pw0 c g g' x, modify zk v now seal u pw0 c g = (g', Ok tt) ->
  c_add c = [] -> c_approve c = [] -> In x (m_ids g') -> In x (m_ids g).
Proof.
  intros zk v now seal u pw0 c g g' x M A P I. apply C91_effects in M. destruct M as (adds & E). pose proof (e_adds _ _ _ _ _ _ _ E) as F.
  rewrite A in F. inversion F. subst adds. rewrite (e_members _ _ _ _ _ _ _ E), P in I. cbn [map] in I. rewrite !app_nil_r in I.
  apply filter_In in I. tauto.
Qed.
Definition dora : bytes := repeat 4 16.
Definition g_inv : v2 := w_cpending [mkMember dora R_DEFAULT [] 0] (w_pending [mkPending dora R_DEFAULT alice] g0).
Definition accept_change : actions := mkActions 5 [] [] [] [] [] [] [[4]] None None None None None None [] [] [] None None None.
(* Dora is invited and accepts with a presentation that verifies. The change is accepted; Dora is not a member. *)
Theorem C93_invited_user_joins_refuted : exists zk v now u c g p, good v g /\ In (u_cipher u) (q_ids g) /\ u_gkey u = v_key g /\
  c_accept c = [p] /\ zk p = Some (u_cipher u, [4; 4]) /\ snd (modify zk v now (Ok tt) u [] c g) = Ok tt /\
  ~ In (u_cipher u) (m_ids (fst (modify zk v now (Ok tt) u [] c g))) /\ In (u_cipher u) (q_ids (fst (modify zk v now (Ok tt) u [] c g))).
Proof.
  exists zk0, v0, 0, (user dora), accept_change, g_inv, [4]. split; [apply C48_validated; vm_compute; reflexivity|].
  split; [now left|]. split; [reflexivity|]. split; [reflexivity|]. split; [reflexivity|]. split; [vm_compute; reflexivity|].
  split; [apply mem_notin; vm_compute; reflexivity|apply mem_in; vm_compute; reflexivity].
Qed.

(* ---------- C94: requests to join ---------- *)
(* A request never reaches the list approvals are made from. *)
Theorem C94_request_not_listed : forall zk v now seal u pw0 c g g' x, modify zk v now seal u pw0 c g = (g', Ok tt) ->
  In x (r_ids g') -> In x (r_ids g).
Proof.
  intros zk v now seal u pw0 c g g' x M I. apply C91_effects in M. destruct M as (adds & E). unfold r_ids in *.
  rewrite (e_asking _ _ _ _ _ _ _ E) in I. apply in_map_iff in I. destruct I as (a & <- & I). unfold without in I.
  do 3 (apply filter_In in I; destruct I as [I _]). now apply in_map.
Qed.
(* Nor can an administrator approve someone who is not on it. *)
Theorem C94_approval_needs_listing : forall zk v now seal u pw0 c g x r y, In (x, r) (c_approve c) -> ~ In x (r_ids g) ->
  snd (modify zk v now seal u pw0 c g) <> Ok y.
Proof.
  intros zk v now seal u pw0 c g x r [] I N H. destruct (modify zk v now seal u pw0 c g) as [g' o] eqn:M. cbn [snd] in H. subst o.
  apply C91_effects in M. destruct M as (adds & E). destruct (e_approved _ _ _ _ _ _ _ E x r I). contradiction.
Qed.
Definition g_link : v2 := mkV2 key0 4 false [116] [] [] [7] (Some (mkAccess A_MEMBER A_ADMIN A_ADMIN))
  [mkMember alice R_ADMIN [5] 0] [] [mkAsking dora [3]] [] [].
Definition erin : bytes := repeat 5 16.
Definition ask_change : actions := mkActions 5 [] [] [] [] [] [] [] None None None None None None [Some (mkNewAsking [] [] [5] 0)] [] [] None None None.
Definition approve_change : actions := mkActions 6 [] [] [] [] [] [] [] None None None None None None [] [] [(erin, R_DEFAULT)] None None None.
(* Erin asks to join with the password. There is one listed already, who may be approved; Erin may not. *)
Lemma ask_applied : fst (ApplyAddMembersPendingAdminApproval (user erin) [7] g_link [mkNewAsking erin [5; 5] [5] 0] g_link) =
  w_casking [mkAsking erin [5; 5]] g_link.
Proof. vm_compute. reflexivity. Qed.
Theorem C94_request_can_be_approved_refuted : exists u pw l a c v zk now g, good v g /\ administrator a g /\
  snd (ApplyAddMembersPendingAdminApproval u pw g l g) = Ok tt /\ map k_uid l = [u_cipher u] /\ c_approve c = [(u_cipher u, R_DEFAULT)] /\
  snd (modify zk v now (Ok tt) a [] c (fst (ApplyAddMembersPendingAdminApproval u pw g l g))) = Err EBadRequest.
Proof.
  exists (user erin), [7], [mkNewAsking erin [5; 5] [5] 0], (user alice), approve_change, v0, zk0, 0, g_link.
  split; [apply C48_validated; vm_compute; reflexivity|].
  split; [exists (mkMember alice R_ADMIN [5] 0); split; [split; [reflexivity|split; [now left|reflexivity]]|reflexivity]|].
  split; [vm_compute; reflexivity|]. split; [reflexivity|]. split; [reflexivity|]. vm_compute. reflexivity.
Qed.
Example C94_example : modify zk0 v0 0 (Ok tt) (user alice) []
    (mkActions 6 [] [] [] [] [] [] [] None None None None None None [] [] [(dora, R_DEFAULT)] None None None) g_link =
  (mkV2 key0 6 false [116] [] [] [7] (Some (mkAccess A_MEMBER A_ADMIN A_ADMIN))
    [mkMember alice R_ADMIN [5] 0; mkMember dora R_DEFAULT [3] 5] [] [] [] [], Ok tt).
Proof. vm_compute. reflexivity. Qed.
(* And the one who asks is told no: after applying the request ModifyGroup looks for them in the lists they are not
   in. *)
Theorem C94_asking_is_refused : snd (modify zk0 v0 0 (Ok tt) (user erin) [66; 119; 61; 61] ask_change g_link) = Err EUnauthorized.
Proof. vm_compute. reflexivity. Qed.

(* ---------- C95: the limit of descriptions ---------- *)
Theorem C95_description_within_its_limit_refuted : exists ops size title descr g,
  zlen (v_descr g) <= descr /\ good (mkValidator (Some ops) size title descr) g /\
  ValidateFinalGroupState (NewGroupValidator ops size title descr) g = Err EBadRequest.
Proof.
  exists (fun k _ => beq k key0), 10, 20, 40, (w_descr (repeat 100 30) g0).
  split; [vm_compute; discriminate|]. split; [apply C48_validated; vm_compute; reflexivity|]. vm_compute. reflexivity.
Qed.
(* what is enforced: the limit of the title, for both *)
Theorem C95_limit_is_that_of_titles : forall ops size title descr g,
  ValidateFinalGroupState (NewGroupValidator ops size title descr) g = Ok tt -> zlen (v_descr g) <= title.
Proof. intros ops size title descr g H. apply C48_validated in H. apply (gd_descr _ _ H). Qed.

Print Assumptions C91_effects.
Print Assumptions C92_no_invitation_is_accepted.
Print Assumptions C92_administrator_invites_refuted.
Print Assumptions C93_accepting_makes_no_member.
Print Assumptions C93_invited_user_joins_refuted.
Print Assumptions C94_request_not_listed.
Print Assumptions C94_approval_needs_listing.
Print Assumptions C94_request_can_be_approved_refuted.
Print Assumptions C95_description_within_its_limit_refuted.
