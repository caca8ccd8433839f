(* C44-C48: changes to groups of the second version. *)
From Coq Require Import ZArith List Lia Bool.
From Verif Require Import Bytes Res Encodings GroupsV2 GroupsV2Proofs.
Import ListNotations.
Open Scope Z_scope.

(* ---------- who may do what, said of a group ---------- *)
Definition acting (u : guser) (g : v2) (m : member) : Prop :=
  u_gkey u = v_key g /\ In m (v_members g) /\ m_uuid m = u_cipher u.
Definition administrator (u : guser) (g : v2) : Prop := exists m, acting u g m /\ m_role m = R_ADMIN.
Definition belongs (u : guser) (g : v2) : Prop := exists m, acting u g m.
Definition rule (g : v2) (P : access -> Prop) : Prop := exists a, v_acc g = Some a /\ P a.
Definition open_to_members (x : Z) : Prop := x = A_MEMBER \/ x = A_ANY.
(* a stranger may join where anybody may add, or through an open link with the right password *)
Definition may_join (u : guser) (pw : bytes) (g : v2) : Prop :=
  u_gkey u = v_key g /\ ~ belongs u g /\
  rule g (fun a => a_members a = A_ANY \/ (a_link a = A_ANY /\ v_pass g = pw)).
(* an ordinary member may bring others where members may add *)
Definition may_bring (u : guser) (g : v2) : Prop :=
  exists m, acting u g m /\ m_role m = R_DEFAULT /\ rule g (fun a => open_to_members (a_members a)).
Definition inside (u : guser) (pw : bytes) (g : v2) : Prop := belongs u g \/ may_join u pw g.
Definition may_edit (u : guser) (pw : bytes) (g : v2) : Prop :=
  inside u pw g /\ rule g (fun a => open_to_members (a_attrs a)).

(* what someone who is no administrator of g can have made of it *)
Record limited (u : guser) (pw : bytes) (g g' : v2) : Prop := mkLimited {
  l_key : v_key g' = v_key g;
  l_acc : v_acc g' = v_acc g;
  l_pass : v_pass g' = v_pass g;
  l_annc : v_annc g' = v_annc g;
  l_title : v_title g' = v_title g \/ (v_title g' <> [] /\ may_edit u pw g);
  l_avatar : v_avatar g' = v_avatar g \/ may_edit u pw g;
  l_descr : v_descr g' = v_descr g \/ may_edit u pw g;
  l_admins : forall m, In m (v_members g') -> m_role m = R_ADMIN ->
             exists m0, In m0 (v_members g) /\ m_uuid m0 = m_uuid m /\ m_role m0 = R_ADMIN;
  l_stay : forall m, In m (v_members g) -> m_uuid m <> u_cipher u -> In m (v_members g');
  l_new : forall m, In m (v_members g') ->
          In (m_uuid m) (m_ids g) \/ may_bring u g \/ (may_join u pw g /\ m_uuid m = u_cipher u);
  l_pending : forall q, In q (v_pending g) ->
              q_uuid q = u_cipher u \/ In q (v_pending g') \/ may_bring u g;
  l_invited : forall q, In q (v_pending g') ->
              In q (v_pending g) \/ (q_role q <> R_ADMIN /\ inside u pw g /\ rule g (fun a => open_to_members (a_members a)));
  l_asking : forall a, In a (v_asking g) ->
             r_uuid a = u_cipher u \/ In a (v_asking g') \/ may_bring u g;
  l_noask : incl (v_asking g') (v_asking g);
  l_casking : forall a, In a (v_casking g') ->
              In a (v_casking g) \/ (r_uuid a = u_cipher u /\ v_pass g = pw /\ rule g (fun x => a_link x = A_ADMIN));
  l_cpending : forall m, In m (v_cpending g) -> m_uuid m <> u_cipher u -> In m (v_cpending g') }.

Lemma ok_inj {A} (a b : A) : Ok a = Ok b -> a = b.
Proof. congruence. Qed.
Lemma limited_refl u pw g : limited u pw g g.
Proof.
  constructor; auto.
  - intros m I A. eauto.
  - intros m I. left. now apply in_map.
  - apply incl_refl.
Qed.

Lemma is_admin_true u g : is_admin u g = true -> administrator u g.
Proof.
  unfold is_admin. destruct (source u g) as [m|] eqn:S; [|discriminate]. intros E. apply Z.eqb_eq in E.
  apply source_some in S. exists m. unfold acting. tauto.
Qed.
Lemma just_me_ids u g ids : just_me u g ids = true -> u_gkey u = v_key g /\ ids = [u_cipher u].
Proof. destruct ids as [|x [|]]; cbn [just_me]; try discriminate. intros E. apply u_is_eq in E. destruct E as [K ->]. auto. Qed.

Section Limited.
  Variables (u : guser) (pw : bytes) (g : v2).
  Hypothesis NA : ~ administrator u g.
  Notation L := (limited u pw g).

  Lemma L_not_admin x : L x -> is_admin u x = false.
  Proof.
    intros H. destruct (is_admin u x) eqn:E; [|reflexivity]. exfalso. apply NA.
    apply is_admin_true in E. destruct E as (m & (K & I & U) & A). destruct (l_admins _ _ _ _ H m I A) as (m0 & I0 & U0 & A0).
    exists m0. split; [|exact A0]. split; [|split; [exact I0|congruence]]. rewrite K. apply (l_key _ _ _ _ H).
  Qed.
  Lemma L_inside x : L x -> belongs u x -> inside u pw g.
  Proof.
    intros H (m & K & I & U). destruct (l_new _ _ _ _ H m I) as [J|[(m0 & A & _)|[J _]]].
    - left. apply in_map_iff in J. destruct J as (m0 & E & J). exists m0. split; [|split; [exact J|congruence]].
      rewrite K. apply (l_key _ _ _ _ H).
    - left. now exists m0.
    - now right.
  Qed.
  Lemma source_belongs x m : source u x = Some m -> belongs u x.
  Proof. intros S. apply source_some in S. exists m. unfold acting. tauto. Qed.
  Lemma L_edit x : L x -> attrs_allowed u x = Ok true -> may_edit u pw g.
  Proof.
    intros H. unfold attrs_allowed, acc. pose proof (L_not_admin x H) as NAx. unfold is_admin in NAx.
    destruct (source u x) as [m|] eqn:S; [|discriminate]. destruct (v_acc x) as [a|] eqn:A; [|discriminate].
    intros E. injection E as E. split; [apply (L_inside x H), (source_belongs _ _ S)|]. exists a.
    rewrite <- (l_acc _ _ _ _ H). split; [exact A|]. unfold open_to_members.
    destruct (a_attrs a =? A_ANY) eqn:E1; [apply Z.eqb_eq in E1; auto|].
    destruct (a_attrs a =? A_MEMBER) eqn:E2; [apply Z.eqb_eq in E2; auto|]. cbn [orb] in E.
    destruct (a_attrs a =? A_ADMIN); congruence.
  Qed.

  (* a group with the same lists, key, access, password and announcement mark *)
  Lemma L_text x y : L x -> v_key y = v_key x -> v_acc y = v_acc x -> v_pass y = v_pass x -> v_annc y = v_annc x ->
    (v_title y = v_title g \/ (v_title y <> [] /\ may_edit u pw g)) -> (v_avatar y = v_avatar g \/ may_edit u pw g) ->
    (v_descr y = v_descr g \/ may_edit u pw g) ->
    v_members y = v_members x -> v_pending y = v_pending x -> v_asking y = v_asking x -> v_casking y = v_casking x ->
    v_cpending y = v_cpending x -> L y.
  Proof.
    intros H K A P N T V D M Q R CR CQ. destruct H. constructor; unfold m_ids in *; try congruence; auto;
      rewrite ?M, ?Q, ?R, ?CR, ?CQ; auto.
  Qed.

  Lemma L_title_step x o : L x -> L (fst (ApplyModifyTitle u x o x)).
  Proof.
    intros H. destruct o as [t|]; [|exact H]. unfold ApplyModifyTitle, refuse. destruct (zlen t =? 0) eqn:E; [exact H|].
    destruct (allowed_cases (attrs_allowed u x) x (w_title t x, Ok tt)) as [[-> C]|[-> _]]; [|exact H].
    apply zlen_pos in E. pose proof (L_edit x H C).
    apply (L_text x); auto.
  Qed.
  Lemma L_avatar_step x o : L x -> L (fst (ApplyModifyAvatar u x o x)).
  Proof.
    intros H. destruct o as [t|]; [|exact H]. unfold ApplyModifyAvatar.
    destruct (allowed_cases (attrs_allowed u x) x (w_avatar t x, Ok tt)) as [[-> C]|[-> _]]; [|exact H].
    pose proof (L_edit x H C).
    apply (L_text x); auto. apply (l_title _ _ _ _ H).
  Qed.
  Lemma L_descr_step x o : L x -> L (fst (ApplyModifyDescription u x o x)).
  Proof.
    intros H. destruct o as [t|]; [|exact H]. unfold ApplyModifyDescription.
    destruct (allowed_cases (attrs_allowed u x) x (w_descr t x, Ok tt)) as [[-> C]|[-> _]]; [|exact H].
    pose proof (L_edit x H C).
    apply (L_text x); auto. apply (l_title _ _ _ _ H).
  Qed.
  Lemma L_timer_step x o : L x -> L (fst (ApplyModifyTimer u x o x)).
  Proof.
    intros H. destruct o as [t|]; [|exact H]. unfold ApplyModifyTimer.
    destruct (allowed_cases (attrs_allowed u x) x (x, Ok tt)) as [[-> C]|[-> _]]; exact H.
  Qed.
  (* what only administrators may do *)
  Lemma L_admin_only x k : L x -> fst (allowed (Ok (is_admin u x)) x k) = x.
  Proof. intros H. rewrite (L_not_admin x H). reflexivity. Qed.
  Lemma L_roles_step x l : L x -> L (fst (ApplyModifyMemberRoles u x l x)).
  Proof. intros H. unfold ApplyModifyMemberRoles. destruct l; [exact H|]. now rewrite L_admin_only. Qed.
  Lemma L_attrs_step x o : L x -> L (fst (ApplyModifyAttributesAccess u x o x)).
  Proof.
    intros H. destruct o; [|exact H]. unfold ApplyModifyAttributesAccess.
    edestruct refuse_cases as [[-> _]|[-> _]]; [|exact H]. now rewrite L_admin_only.
  Qed.
  Lemma L_mems_step x o : L x -> L (fst (ApplyModifyMembersAccess u x o x)).
  Proof.
    intros H. destruct o; [|exact H]. unfold ApplyModifyMembersAccess.
    edestruct refuse_cases as [[-> _]|[-> _]]; [|exact H]. now rewrite L_admin_only.
  Qed.
  Lemma L_link_step x o : L x -> L (fst (ApplyModifyAddFromInviteLinkAccess u x o x)).
  Proof. intros H. destruct o; [|exact H]. unfold ApplyModifyAddFromInviteLinkAccess. now rewrite L_admin_only. Qed.
  Lemma L_approve_step x l : L x -> L (fst (ApplyPromotePendingAdminApproval u x l x)).
  Proof. intros H. unfold ApplyPromotePendingAdminApproval. destruct l; [exact H|]. now rewrite L_admin_only. Qed.
  Lemma L_pass_step x o : L x -> L (fst (ApplyModifyInviteLinkPassword u x o x)).
  Proof. intros H. destruct o; [|exact H]. unfold ApplyModifyInviteLinkPassword. now rewrite L_admin_only. Qed.
  Lemma L_annc_step x o : L x -> L (fst (ApplyModifyAnnouncementsOnly u x o x)).
  Proof. intros H. destruct o; [|exact H]. unfold ApplyModifyAnnouncementsOnly. now rewrite L_admin_only. Qed.

  (* deletions *)
  Lemma L_delete x ids : L x -> delete_allowed u x ids = true -> u_gkey u = v_key g /\ ids = [u_cipher u].
  Proof.
    intros H D. unfold delete_allowed in D. rewrite (L_not_admin x H) in D. apply just_me_ids in D.
    rewrite (l_key _ _ _ _ H) in D. exact D.
  Qed.
  Lemma not_mine x : x <> u_cipher u -> negb (mem x [u_cipher u]) = true.
  Proof. intros N. apply negb_true_iff, mem_notin. intros [E|[]]. congruence. Qed.
  Lemma L_del_step x ids : L x -> L (fst (ApplyDeleteMembers u x ids x)).
  Proof.
    intros H. unfold ApplyDeleteMembers. destruct ids as [|i0 is0]; [exact H|]. set (ids := i0 :: is0).
    edestruct allowed_cases as [[-> C]|[-> _]]; [|exact H]. injection C as C. apply (L_delete x ids H) in C. destruct C as [K ->].
    edestruct refuse_cases as [[-> _]|[-> _]]; [|exact H]. edestruct refuse_cases as [[-> _]|[-> _]]; [|exact H].
    cbn [fst].
    assert (stay : forall m, In m (v_members x) -> m_uuid m <> u_cipher u ->
              In m (filter (fun m => negb (mem (m_uuid m) [u_cipher u])) (v_members x))).
    { intros m I N. apply filter_In. split; [exact I|now apply not_mine]. }
    destruct H. constructor; cbn [w_members v_key v_acc v_pass v_annc v_title v_avatar v_descr v_members v_pending v_asking v_casking v_cpending m_ids]; auto.
    - intros m I. apply filter_In in I. now apply l_admins0.
    - intros m I. apply filter_In in I. now apply l_new0.
  Qed.
  Lemma L_uninvite_step x ids : L x -> L (fst (ApplyDeleteMembersPendingProfileKey u x ids x)).
  Proof.
    intros H. unfold ApplyDeleteMembersPendingProfileKey. destruct ids as [|i0 is0]; [exact H|]. set (ids := i0 :: is0).
    edestruct allowed_cases as [[-> C]|[-> _]]; [|exact H]. injection C as C. apply (L_delete x ids H) in C. destruct C as [K ->].
    edestruct refuse_cases as [[-> _]|[-> _]]; [|exact H]. edestruct refuse_cases as [[-> _]|[-> _]]; [|exact H].
    destruct H. constructor; cbn [fst w_pending v_key v_acc v_pass v_annc v_title v_avatar v_descr v_members v_pending v_asking v_casking v_cpending m_ids]; auto.
    - intros q I. destruct (beq (q_uuid q) (u_cipher u)) eqn:E; [apply beq_eq in E; auto|]. apply beq_neq in E.
      destruct (l_pending0 q I) as [|[J|J]]; auto. right. left. apply filter_In. split; [exact J|now apply not_mine].
    - intros q I. apply filter_In in I. now apply l_invited0.
  Qed.
  Lemma L_unask_step x ids : L x -> L (fst (ApplyDeleteMembersPendingAdminApproval u x ids x)).
  Proof.
    intros H. unfold ApplyDeleteMembersPendingAdminApproval. destruct ids as [|i0 is0]; [exact H|]. set (ids := i0 :: is0).
    edestruct allowed_cases as [[-> C]|[-> _]]; [|exact H]. injection C as C. apply (L_delete x ids H) in C. destruct C as [K ->].
    edestruct refuse_cases as [[-> _]|[-> _]]; [|exact H]. edestruct refuse_cases as [[-> _]|[-> _]]; [|exact H].
    destruct H. constructor; cbn [fst w_asking v_key v_acc v_pass v_annc v_title v_avatar v_descr v_members v_pending v_asking v_casking v_cpending m_ids]; auto.
    - intros q I. destruct (beq (r_uuid q) (u_cipher u)) eqn:E; [apply beq_eq in E; auto|]. apply beq_neq in E.
      destruct (l_asking0 q I) as [|[J|J]]; auto. right. left. apply filter_In. split; [exact J|now apply not_mine].
    - intros q I. apply filter_In in I. now apply l_noask0.
  Qed.

  (* presentations are of the one who acts *)
  Lemma presentations_mine zk v x l : forall ps, presentations zk v u x l = Ok ps -> forall i k, lookup_key i ps = Some k -> i = u_cipher u.
  Proof.
    induction l as [|p r IH]; intros ps H i k E; cbn [presentations] in H.
    - injection H as <-. discriminate.
    - apply bind_ok in H. destruct H as ((i0, k0) & H1 & H). apply bind_ok in H. destruct H as (y & H2 & [= <-]).
      cbn [lookup_key] in E. destruct (beq i i0) eqn:B.
      + apply beq_eq in B. subst i0. unfold presentation_update in H1. destruct p; [discriminate|].
        destruct (zk _) as [[uid pk]|]; [|discriminate]. destruct (u_is u uid (v_key x)) eqn:U; [|discriminate].
        cbn [negb] in H1. apply bind_ok in H1. destruct H1 as (_ & _ & [= <- <-]). apply u_is_eq in U. tauto.
      + now apply (IH y H2 i k).
  Qed.
  Lemma L_pkeys_step zk v x l : L x -> L (fst (ApplyModifyMemberProfileKeys zk v u x l x)).
  Proof.
    intros H. unfold ApplyModifyMemberProfileKeys. destruct (presentations zk v u x l) as [ps|e|] eqn:P; try exact H.
    edestruct refuse_cases as [[-> _]|[-> _]]; [|exact H]. cbn [fst].
    set (f := fun m => match lookup_key (m_uuid m) ps with Some k => mkMember (m_uuid m) (m_role m) k (m_joined m) | None => m end).
    assert (fid : forall m, m_uuid (f m) = m_uuid m) by (intros m; unfold f; destruct (lookup_key _ _); reflexivity).
    assert (frole : forall m, m_role (f m) = m_role m) by (intros m; unfold f; destruct (lookup_key _ _); reflexivity).
    assert (fkeep : forall m, m_uuid m <> u_cipher u -> f m = m).
    { intros m N. unfold f. destruct (lookup_key (m_uuid m) ps) eqn:E; [|reflexivity].
      apply (presentations_mine _ _ _ _ _ P) in E. contradiction. }
    assert (ids : map m_uuid (map f (v_members x)) = m_ids x).
    { rewrite map_map. apply map_ext. exact fid. }
    destruct H. constructor; unfold m_ids in *; cbn [w_members v_key v_acc v_pass v_annc v_title v_avatar v_descr v_members v_pending v_asking v_casking v_cpending]; rewrite ?ids; auto.
    - intros m I. apply in_map_iff in I. destruct I as (m0 & <- & I). rewrite fid, frole. now apply l_admins0.
    - intros m I N. apply in_map_iff. exists m. split; [now apply fkeep|now apply l_stay0].
    - intros m I. apply in_map_iff in I. destruct I as (m0 & <- & I). rewrite fid. now apply l_new0.
  Qed.
  Lemma L_accept_step zk v x l : L x -> L (fst (ApplyPromoteMembersPendingProfileKey zk v u x l x)).
  Proof.
    intros H. unfold ApplyPromoteMembersPendingProfileKey. destruct (presentations zk v u x l) as [ps|e|] eqn:P; try exact H.
    edestruct refuse_cases as [[-> _]|[-> _]]; [|exact H]. edestruct refuse_cases as [[-> _]|[-> _]]; [|exact H].
    destruct H. constructor; unfold m_ids in *; cbn [fst w_cpending v_key v_acc v_pass v_annc v_title v_avatar v_descr v_members v_pending v_asking v_casking v_cpending]; auto.
    intros m I N. apply in_map_iff. exists m. split; [|now apply l_cpending0].
    destruct (lookup_key (m_uuid m) ps) eqn:E; [|reflexivity]. apply (presentations_mine _ _ _ _ _ P) in E. contradiction.
  Qed.

  (* invitations and requests *)
  Lemma invite_check_roles seen l : invite_check false seen l = Ok tt -> forall n, In n l -> n_role n <> R_ADMIN.
  Proof.
    revert seen. induction l as [|n r IH]; intros seen H m I; [destruct I|]. cbn [invite_check] in H.
    destruct (zlen (n_uid n) =? 0); [discriminate|]. destruct (zlen (n_pkey n) =? 0); [discriminate|].
    destruct (zlen (n_pres n) =? 0); [discriminate|]. destruct (n_role n =? R_UNKNOWN); [discriminate|].
    destruct (n_role n =? R_ADMIN) eqn:E; cbn [andb negb] in H; [discriminate|]. destruct (mem (n_uid n) seen); [discriminate|].
    destruct I as [<-|I]; [now apply Z.eqb_neq|now apply (IH _ H)].
  Qed.
  Lemma L_invite_step x l : L x -> L (fst (ApplyAddMembersPendingProfileKeys u x l x)).
  Proof.
    intros H. unfold ApplyAddMembersPendingProfileKeys. destruct l as [|n0 r0]; [exact H|]. set (l := n0 :: r0).
    edestruct allowed_cases as [[-> C]|[-> _]]; [|exact H]. rewrite (L_not_admin x H).
    destruct (invite_check false [] l) as [[]|e|] eqn:V; try exact H.
    edestruct refuse_cases as [[-> _]|[-> _]]; [|exact H].
    pose proof (L_not_admin x H) as NAx. unfold is_admin in NAx.
    unfold invite_allowed, acc in C. destruct (source u x) as [s|] eqn:S; [|discriminate].
    destruct (m_role s =? R_ADMIN); [discriminate|].
    destruct (v_acc x) as [a|] eqn:A; [|discriminate]. injection C as C.
    assert (ok : inside u pw g /\ rule g (fun a => open_to_members (a_members a))).
    { split; [apply (L_inside x H), (source_belongs _ _ S)|]. exists a. rewrite <- (l_acc _ _ _ _ H). split; [exact A|].
      apply orb_true_iff in C. rewrite !Z.eqb_eq in C. exact C. }
    pose proof (invite_check_roles _ _ V) as R.
    destruct H. constructor; cbn [fst w_pending v_key v_acc v_pass v_annc v_title v_avatar v_descr v_members v_pending v_asking v_casking v_cpending m_ids]; auto.
    - intros q I. destruct (l_pending0 q I) as [|[J|J]]; auto. right. left. apply in_or_app. now left.
    - intros q I. apply in_app_or in I. destruct I as [I|I]; [now apply l_invited0|]. right.
      apply in_map_iff in I. destruct I as (n & <- & I). split; [exact (R n I)|exact ok].
  Qed.
  Lemma L_ask_step x l : L x -> L (fst (ApplyAddMembersPendingAdminApproval u pw x l x)).
  Proof.
    intros H. unfold ApplyAddMembersPendingAdminApproval. destruct l as [|n0 r0]; [exact H|]. set (l := n0 :: r0).
    edestruct allowed_cases as [[-> C]|[-> _]]; [|exact H].
    edestruct refuse_cases as [[-> _]|[-> _]]; [|exact H]. edestruct refuse_cases as [[-> _]|[-> _]]; [|exact H].
    edestruct refuse_cases as [[-> E]|[-> _]]; [|exact H]. apply negb_false_iff in E. apply just_me_ids in E. destruct E as [K E].
    unfold ask_allowed, acc in C. destruct (v_acc x) as [a|] eqn:A; [|discriminate]. injection C as C.
    apply andb_true_iff in C. destruct C as [C1 C2]. apply Z.eqb_eq in C1. apply beq_eq in C2.
    destruct H. constructor; cbn [fst w_casking v_key v_acc v_pass v_annc v_title v_avatar v_descr v_members v_pending v_asking v_casking v_cpending m_ids]; auto.
    intros q I. apply in_app_or in I. destruct I as [I|I]; [now apply l_casking0|]. right.
    apply in_map_iff in I. destruct I as (n & <- & I). cbn [r_uuid]. split; [|split].
    - assert (J : In (k_uid n) (map k_uid l)) by now apply in_map. rewrite E in J. destruct J as [J|[]]. auto.
    - now rewrite <- l_pass0.
    - exists a. rewrite <- l_acc0. auto.
  Qed.

  (* adding members; the first action of a change, so judged on g itself *)
  Definition adder (m : bytes) : Prop := may_bring u g \/ (may_join u pw g /\ m = u_cipher u).
  Lemma L_add_loop ids l : (forall n, In n l -> adder (n_uid n)) -> (forall i, In i ids -> adder i) ->
    forall x, L x -> L (fst (add_loop false ids l x)).
  Proof.
    intros Hl Hi. induction l as [|n r IH]; intros x H; [exact H|]. cbn [add_loop].
    destruct (n_role n =? R_ADMIN) eqn:E; [exact H|]. cbn [andb].
    do 3 (edestruct refuse_cases as [[-> _]|[-> _]]; [|exact H]).
    apply IH; [intros m I; apply Hl; now right|]. apply Z.eqb_neq in E.
    assert (gone : forall i, mem i ids = true -> i = u_cipher u \/ may_bring u g).
    { intros i M. apply mem_in in M. destruct (Hi i M) as [|[_ ->]]; auto. }
    destruct H. constructor; cbn [w_asking w_pending w_members v_key v_acc v_pass v_annc v_title v_avatar v_descr v_members v_pending v_asking v_casking v_cpending m_ids]; auto.
    - intros m I. apply in_app_or in I. destruct I as [I|[<-|[]]]; [now apply l_admins0|]. cbn [m_role]. contradiction.
    - intros m I N. apply in_or_app. left. now apply l_stay0.
    - intros m I. apply in_app_or in I. destruct I as [I|[<-|[]]]; [now apply l_new0|]. right. apply Hl. now left.
    - intros q I. destruct (l_pending0 q I) as [|[J|]]; auto. destruct (mem (q_uuid q) ids) eqn:M.
      + destruct (gone _ M); auto.
      + right. left. apply filter_In. split; [exact J|now rewrite M].
    - intros q I. apply filter_In in I. now apply l_invited0.
    - intros q I. destruct (l_asking0 q I) as [|[J|]]; auto. destruct (mem (r_uuid q) ids) eqn:M.
      + destruct (gone _ M); auto.
      + right. left. apply filter_In. split; [exact J|now rewrite M].
    - intros q I. apply filter_In in I. now apply l_noask0.
  Qed.
  Lemma L_add_step l : L (fst (ApplyAddMembers u pw g l g)).
  Proof.
    pose proof (limited_refl u pw g) as H. unfold ApplyAddMembers. destruct l as [|n0 r0]; [exact H|]. set (l := n0 :: r0).
    edestruct allowed_cases as [[-> C]|[-> _]]; [|exact H].
    do 2 (edestruct refuse_cases as [[-> _]|[-> _]]; [|exact H]).
    pose proof (L_not_admin g H) as N. rewrite N.
    assert (A : forall i, In i (map n_uid l) -> adder i).
    { unfold add_allowed, acc in C. unfold is_admin in N. destruct (source u g) as [m|] eqn:S.
      - rewrite N in C. destruct (m_role m =? R_DEFAULT) eqn:E; [|discriminate].
        destruct (v_acc g) as [a|] eqn:Ac; [|discriminate]. injection C as C. intros i _. left. exists m.
        apply source_some in S. split; [unfold acting; tauto|]. split; [now apply Z.eqb_eq|]. exists a. split; [exact Ac|].
        apply orb_true_iff in C. rewrite !Z.eqb_eq in C. exact C.
      - destruct (v_acc g) as [a|] eqn:Ac; [|discriminate]. apply ok_inj in C. apply andb_true_iff in C. destruct C as [C1 C2].
        apply just_me_ids in C2. destruct C2 as [K E]. rewrite E. intros i [<-|[]]. right. split; [|reflexivity].
        split; [exact K|]. split.
        + intros (m & K' & I & U). apply (source_none _ _ _ S I). auto.
        + exists a. split; [exact Ac|]. rewrite orb_true_iff, andb_true_iff, !Z.eqb_eq, beq_eq in C1. tauto. }
    apply L_add_loop; auto. intros n I. apply A. now apply in_map.
  Qed.

  Lemma L_run zk v c adds invited asked : L (fst (run (fun x => x) (steps zk v u pw c adds invited asked) g)).
  Proof.
    unfold steps. cbn [run]. pose proof (L_add_step adds) as H.
    destruct (ApplyAddMembers u pw g adds g) as [g1 [[]|e|]]; cbn [fst] in *; auto.
    apply (run_inv L (fun x => x)
      [ (fun im => ApplyDeleteMembers u im (c_del c));
        (fun im => ApplyModifyMemberRoles u im (c_roles c));
        (fun im => ApplyModifyMemberProfileKeys zk v u im (c_pkeys c));
        (fun im => ApplyAddMembersPendingProfileKeys u im invited);
        (fun im => ApplyDeleteMembersPendingProfileKey u im (c_uninvite c));
        (fun im => ApplyPromoteMembersPendingProfileKey zk v u im (c_accept c));
        (fun im => ApplyModifyTitle u im (c_title c));
        (fun im => ApplyModifyAvatar u im (c_avatar c));
        (fun im => ApplyModifyTimer u im (c_timer c));
        (fun im => ApplyModifyAttributesAccess u im (c_attrs c));
        (fun im => ApplyModifyMembersAccess u im (c_mems c));
        (fun im => ApplyModifyAddFromInviteLinkAccess u im (c_link c));
        (fun im => ApplyAddMembersPendingAdminApproval u pw im asked);
        (fun im => ApplyDeleteMembersPendingAdminApproval u im (c_unask c));
        (fun im => ApplyPromotePendingAdminApproval u im (c_approve c));
        (fun im => ApplyModifyInviteLinkPassword u im (c_pass c));
        (fun im => ApplyModifyDescription u im (c_descr c));
        (fun im => ApplyModifyAnnouncementsOnly u im (c_annc c)) ]); [|exact H].
    intros s x I J. cbn [In] in I.
    repeat (destruct I as [<-|I]; [solve [ now apply L_del_step | now apply L_roles_step | now apply L_pkeys_step
      | now apply L_invite_step | now apply L_uninvite_step | now apply L_accept_step | now apply L_title_step
      | now apply L_avatar_step | now apply L_timer_step | now apply L_attrs_step | now apply L_mems_step
      | now apply L_link_step | now apply L_ask_step | now apply L_unask_step | now apply L_approve_step
      | now apply L_pass_step | now apply L_descr_step | now apply L_annc_step ] |]).
    destruct I.
  Qed.
  Lemma L_rev r x : L x -> L (w_rev r x).
  Proof. intros H. destruct H. constructor; auto. Qed.
End Limited.

(* ---------- examples ---------- *)
Definition none (r : Z) : actions := mkActions r [] [] [] [] [] [] [] None None None None None None [] [] [] None None None.
Definition only_title (t : bytes) (r : Z) : actions := mkActions r [] [] [] [] [] [] [] (Some t) None None None None None [] [] [] None None None.
Definition key0 : bytes := [9; 9].
(* a presentation of one byte names the user whose id is that byte sixteen times *)
Definition zk0 : lib := fun p => match p with [x] => Some (repeat x 16, [x; x]) | _ => None end.
Definition alice : bytes := repeat 1 16.
Definition bob : bytes := repeat 2 16.
Definition carol : bytes := Eval vm_compute in HexToUUID (hex (repeat 17 16)).
Definition user (id : bytes) : guser := mkUser id key0.
Definition v0 : validator := NewGroupValidator (fun k _ => beq k key0) 10 20 40.
Definition g0 : v2 := mkV2 key0 4 false [116] [] [] [] (Some (mkAccess A_MEMBER A_MEMBER A_UNSAT))
  [mkMember alice R_ADMIN [5] 0; mkMember bob R_DEFAULT [6] 1] [] [] [] [].

(* ---------- C44 ---------- *)
(* the password that comes with a change *)
Definition given (pw0 pw : bytes) : Prop := (pw0 = [] /\ pw = []) \/ (pw0 <> [] /\ dec64 pw0 = Ok pw).

(* Whatever someone who is no administrator submits, and whether it is accepted, refused or breaks off: the group
   ends up as [limited] allows. No member becomes an administrator, access rules, link password and announcement
   mode stay, nobody but the actor leaves, and everything else only as far as the rules let the actor. *)
Theorem C44_non_administrator : forall zk v now seal u pw0 c g, ~ administrator u g ->
  let g' := fst (modify zk v now seal u pw0 c g) in
  g' = g \/ exists pw, given pw0 pw /\ limited u pw g g'.
Proof.
  intros zk v now seal u pw0 c g NA. unfold modify.
  assert (G : forall pw, (if zlen pw0 =? 0 then Ok [] else dec64 pw0) = Ok pw -> given pw0 pw).
  { intros pw. unfold given. destruct (zlen pw0 =? 0) eqn:E; [apply zlen_zero in E; intros [= <-]; auto|apply zlen_pos in E; auto]. }
  destruct (if zlen pw0 =? 0 then Ok [] else dec64 pw0) as [pw|e|]; auto. specialize (G pw eq_refl).
  destruct (ValidateAddMember zk v g (c_add c)) as [adds|e|]; auto.
  destruct (ValidateAddMembersPendingProfileKey u g (c_invite c)) as [invited|e|]; auto.
  destruct (ValidateAddMembersPendingAdminApproval zk v now u pw g (c_ask c)) as [asked|e|]; auto.
  right. exists pw. split; [exact G|].
  pose proof (L_run u pw g NA zk v c adds invited asked) as H.
  destruct (run (fun x => x) (steps zk v u pw c adds invited asked) g) as [g' [[]|e|]]; cbn [fst] in *; auto.
  destruct (getSourceUuid u g') as [|z zs]; [exact H|].
  destruct seal as [[]|e|]; cbn [fst]; auto. now apply L_rev.
Qed.

(* in particular: administrators are made by administrators *)
Theorem C44_only_administrators_make_administrators : forall zk v now seal u pw0 c g m,
  let g' := fst (modify zk v now seal u pw0 c g) in
  In m (v_members g') -> m_role m = R_ADMIN ->
  administrator u g \/ exists m0, In m0 (v_members g) /\ m_uuid m0 = m_uuid m /\ m_role m0 = R_ADMIN.
Proof.
  intros zk v now seal u pw0 c g m g' I A.
  assert (D : administrator u g \/ ~ administrator u g).
  { destruct (existsb (fun m => beq (u_gkey u) (v_key g) && beq (m_uuid m) (u_cipher u) && (m_role m =? R_ADMIN)) (v_members g)) eqn:E.
    - left. apply existsb_exists in E. destruct E as (x & J & E). rewrite !andb_true_iff, !beq_eq, Z.eqb_eq in E.
      exists x. unfold acting. tauto.
    - right. intros (x & (K & J & U) & R). rewrite existsb_false in E. specialize (E x J). rewrite K, U, R, !beq_refl in E. discriminate. }
  destruct D as [D|D]; [auto|]. right.
  destruct (C44_non_administrator zk v now seal u pw0 c g D) as [E|(pw & _ & L)]; subst g'.
  - rewrite E in I. eauto.
  - apply (l_admins _ _ _ _ L m I A).
Qed.

(* Bob is no administrator; Bob brings Carol and sets the title, and that is accepted. *)
Definition bob_change : actions := mkActions 5 [mkAdding (Some (mkNew [] R_DEFAULT [] [17])) false] [] [] [] [] [] []
  (Some [110; 101; 119]) None None None None None [] [] [] None None None.
Example C44_example : ~ administrator (user bob) g0 /\
  modify zk0 v0 0 (Ok tt) (user bob) [] bob_change g0 =
  (mkV2 key0 5 false [110; 101; 119] [] [] [] (Some (mkAccess A_MEMBER A_MEMBER A_UNSAT))
    [mkMember alice R_ADMIN [5] 0; mkMember bob R_DEFAULT [6] 1; mkMember carol R_DEFAULT [17; 17] 5] [] [] [] [], Ok tt).
Proof.
  split; [|vm_compute; reflexivity]. intros (m & (_ & I & U) & R). destruct I as [<-|[<-|[]]]; [discriminate U|discriminate R].
Qed.
(* and Bob can neither make Carol an administrator nor remove Alice *)
Example C44_refused :
  snd (modify zk0 v0 0 (Ok tt) (user bob) [] (mkActions 5 [mkAdding (Some (mkNew [] R_ADMIN [] [17])) false] [] [] [] [] [] []
    None None None None None None [] [] [] None None None) g0) = Err EUnauthorized /\
  snd (modify zk0 v0 0 (Ok tt) (user bob) [] (mkActions 5 [] [alice] [] [] [] [] []
    None None None None None None [] [] [] None None None) g0) = Err EUnauthorized.
Proof. split; vm_compute; reflexivity. Qed.

(* ---------- C45 ---------- *)
(* A stranger with the link password may not set the title. Together with joining it is accepted. *)
Definition g1 : v2 := mkV2 key0 4 false [116] [] [] [7] (Some (mkAccess A_MEMBER A_ADMIN A_ANY))
  [mkMember alice R_ADMIN [5] 0; mkMember bob R_DEFAULT [6] 1] [] [] [] [].
Definition pass7 : bytes := [66; 119; 61; 61].
Definition join_and_title : actions := mkActions 5 [mkAdding (Some (mkNew [] R_DEFAULT [] [17])) false] [] [] [] [] [] []
  (Some [110; 101; 119]) None None None None None [] [] [] None None None.
Theorem C45_other_actions_do_not_matter_refuted : exists zk v now u pw0 g c,
  (* the title alone is forbidden *)
  snd (modify zk v now (Ok tt) u pw0 (only_title [110; 101; 119] 5) g) = Err EUnauthorized /\
  (* the change with that title and another action is accepted, and the title is set *)
  c_title c = Some [110; 101; 119] /\ snd (modify zk v now (Ok tt) u pw0 c g) = Ok tt /\
  v_title (fst (modify zk v now (Ok tt) u pw0 c g)) = [110; 101; 119] /\ v_title g <> [110; 101; 119].
Proof.
  exists zk0, v0, 0, (user carol), pass7, g1, join_and_title. repeat split; try (vm_compute; reflexivity). discriminate.
Qed.
(* The other way round: what is allowed alone is forbidden beside another action. Alice may set the title and may
   give up the administrator role, but not both in one change. *)
Definition g2 : v2 := mkV2 key0 4 false [116] [] [] [] (Some (mkAccess A_ADMIN A_ADMIN A_UNSAT))
  [mkMember alice R_ADMIN [5] 0; mkMember bob R_DEFAULT [6] 1] [] [] [] [].
Definition step_down (t : option bytes) : actions := mkActions 5 [] [] [(alice, R_DEFAULT)] [] [] [] [] t None None None None None [] [] [] None None None.
Theorem C45_allowed_alone_refuted : exists zk v now u g t,
  snd (modify zk v now (Ok tt) u [] (only_title t 5) g) = Ok tt /\
  snd (modify zk v now (Ok tt) u [] (step_down None) g) = Ok tt /\
  snd (modify zk v now (Ok tt) u [] (step_down (Some t)) g) = Err EUnauthorized.
Proof. exists zk0, v0, 0, (user alice), g2, [110]. repeat split; vm_compute; reflexivity. Qed.

(* ---------- C48 ---------- *)
(* what a group has to be like, without the code's maps *)
Record good (v : validator) (g : v2) : Prop := mkGood {
  gd_title : v_title g <> [] /\ zlen (v_title g) <= z_title v;
  gd_descr : zlen (v_descr g) <= z_descr v;
  gd_size : zlen (v_members g) + zlen (v_pending g) <= z_size v /\ zlen (v_asking g) <= z_size v;
  gd_once : NoDup (map m_uuid (v_members g) ++ map q_uuid (v_pending g) ++ map r_uuid (v_asking g));
  gd_roles : (forall m, In m (v_members g) -> m_role m = R_DEFAULT \/ m_role m = R_ADMIN) /\
             (forall q, In q (v_pending g) -> q_role q = R_DEFAULT \/ q_role q = R_ADMIN);
  gd_access : exists a, v_acc g = Some a /\ (a_attrs a = A_UNKNOWN \/ a_attrs a = A_MEMBER \/ a_attrs a = A_ADMIN) /\
     (a_members a = A_UNKNOWN \/ a_members a = A_MEMBER \/ a_members a = A_ADMIN) /\ 0 <= a_link a <= 4 /\
     (v_pass g = [] -> a_link a = A_UNSAT \/ a_link a = A_UNKNOWN) }.
Lemma nodup_app_iff (a b : list bytes) : NoDup (a ++ b) <-> NoDup a /\ NoDup b /\ (forall x, In x a -> In x b -> False).
Proof.
  induction a as [|x a IH]; cbn [app].
  - split; [intros H; repeat split; [constructor|exact H|intros ? []]|tauto].
  - split.
    + intros H. inversion H as [|? ? N H']. subst. apply IH in H'. destruct H' as (A & B & C). rewrite in_app_iff in N. split; [|split; [exact B|]].
      * constructor; tauto.
      * intros y [<-|I] J; [tauto|eauto].
    + intros (A & B & C). inversion A as [|? ? N A']. subst. constructor.
      * rewrite in_app_iff. intros [I|I]; [tauto|]. apply (C x); [now left|exact I].
      * apply IH. repeat split; auto. intros y I J. apply (C y); [now right|exact J].
Qed.
Lemma one_of_in x l : one_of x l = true <-> In x l.
Proof.
  unfold one_of. rewrite existsb_exists. split; [intros (y & I & E); apply Z.eqb_eq in E; now subst|].
  intros I. exists x. split; [exact I|apply Z.eqb_refl].
Qed.
Lemma role_valid_iff r : role_valid r = true <-> r = R_DEFAULT \/ r = R_ADMIN.
Proof. unfold role_valid. rewrite orb_true_iff, !Z.eqb_eq. tauto. Qed.

(* A group passes the final validation exactly if it is good: nobody is listed twice, in one list or in two, the
   roles are known, and title and lists keep to the limits. *)
Theorem C48_validated : forall v g, ValidateFinalGroupState v g = Ok tt <-> good v g.
Proof.
  intros v g. unfold ValidateFinalGroupState.
  assert (NDX : zlen (keys (m_ids g)) = zlen (v_members g) <-> NoDup (m_ids g)).
  { rewrite <- (keys_nodup (m_ids g)), zlen_nat. unfold m_ids. now rewrite map_length. }
  assert (NDQ : zlen (keys (q_ids g)) = zlen (v_pending g) <-> NoDup (q_ids g)).
  { rewrite <- (keys_nodup (q_ids g)), zlen_nat. unfold q_ids. now rewrite map_length. }
  assert (NDR : zlen (keys (r_ids g)) = zlen (v_asking g) <-> NoDup (r_ids g)).
  { rewrite <- (keys_nodup (r_ids g)), zlen_nat. unfold r_ids. now rewrite map_length. }
  assert (RO : ValidateRoles g = true <-> (forall m, In m (v_members g) -> m_role m = R_DEFAULT \/ m_role m = R_ADMIN) /\
             (forall q, In q (v_pending g) -> q_role q = R_DEFAULT \/ q_role q = R_ADMIN)).
  { unfold ValidateRoles. rewrite andb_true_iff, !forallb_forall. split; intros [A B]; (split; intros x I; [specialize (A x I)|specialize (B x I)]);
      now apply role_valid_iff. }
  assert (ON : NoDup (map m_uuid (v_members g) ++ map q_uuid (v_pending g) ++ map r_uuid (v_asking g)) <->
     NoDup (m_ids g) /\ NoDup (q_ids g) /\ NoDup (r_ids g) /\
     existsb (fun x => mem x (q_ids g) || mem x (r_ids g)) (m_ids g) = false /\ existsb (fun x => mem x (q_ids g)) (r_ids g) = false).
  { rewrite !nodup_app_iff, !existsb_false. unfold m_ids, q_ids, r_ids. split.
    - intros (A & (B & C & D) & E). split; [exact A|split; [exact B|split; [exact C|split]]].
      + intros x I. apply orb_false_iff. rewrite !mem_notin. split; intros J; apply (E x I); apply in_or_app; auto.
      + intros x I. apply mem_notin. intros J. apply (D x J I).
    - intros (A & B & C & D & E). split; [exact A|split; [split; [exact B|split; [exact C|]]|]].
      + intros x I J. specialize (E x J). apply mem_notin in E. contradiction.
      + intros x I J. specialize (D x I). apply orb_false_iff in D. rewrite !mem_notin in D. apply in_app_or in J. tauto. }
  assert (AC : v_acc g = None \/ exists a, v_acc g = Some a) by (destruct (v_acc g); eauto).
  split.
  - intros H.
    destruct (zlen (v_title g) =? 0) eqn:E1; [discriminate|]. destruct (zlen (v_title g) >? z_title v) eqn:E2; [discriminate|].
    destruct (zlen (v_descr g) >? z_descr v) eqn:E3; [discriminate|].
    destruct ((zlen (v_pass g) =? 0) && negb (get_link g =? A_UNSAT) && negb (get_link g =? A_UNKNOWN)) eqn:E4; [discriminate|].
    destruct (zlen (v_pending g) + zlen (v_members g) >? z_size v) eqn:E5; [discriminate|]. destruct (zlen (v_asking g) >? z_size v) eqn:E6; [discriminate|].
    destruct (negb (zlen (keys (m_ids g)) =? zlen (v_members g)) || negb (zlen (keys (q_ids g)) =? zlen (v_pending g))
          || negb (zlen (keys (r_ids g)) =? zlen (v_asking g))) eqn:E7; [discriminate|].
    destruct (existsb (fun x => mem x (q_ids g) || mem x (r_ids g)) (m_ids g)) eqn:E8; [discriminate|].
    destruct (existsb (fun x => mem x (q_ids g)) (r_ids g)) eqn:E9; [discriminate|].
    destruct (negb (ValidateRoles g)) eqn:E10; [discriminate|].
    unfold ValidateAccessControl, acc in H. destruct AC as [A|(a & A)]; rewrite A in H; [discriminate|].
    destruct (negb (one_of (a_attrs a) base_access)) eqn:E11; [discriminate|]. destruct (negb (one_of (a_members a) base_access)) eqn:E12; [discriminate|].
    destruct (negb (one_of (a_link a) (base_access ++ [A_ANY; A_UNSAT]))) eqn:E13; [discriminate|].
    rewrite negb_false_iff in E10, E11, E12, E13. rewrite one_of_in in E11, E12, E13.
    rewrite !orb_false_iff, !negb_false_iff, !Z.eqb_eq in E7. destruct E7 as [[E71 E72] E73].
    apply zlen_pos in E1. rewrite Z.gtb_ltb, Z.ltb_ge in E2, E3, E5, E6.
    constructor.
    + auto.
    + auto.
    + lia.
    + apply ON. tauto.
    + now apply RO.
    + exists a. split; [exact A|]. unfold base_access, A_MEMBER, A_UNKNOWN, A_ADMIN, A_ANY, A_UNSAT in *. cbn [In app] in *.
      split; [lia|]. split; [lia|]. split; [lia|]. intros P. unfold get_link in E4. rewrite A, P in E4. cbn [zlen length] in E4.
      change (Z.of_nat 0 =? 0) with true in E4. rewrite andb_true_l, andb_false_iff, !negb_false_iff, !Z.eqb_eq in E4. exact E4.
  - intros [[T1 T2] D [S1 S2] O R (a & A & P1 & P2 & P3 & P4)]. apply ON in O. destruct O as (O1 & O2 & O3 & O4 & O5). apply RO in R.
    apply zlen_pos in T1. rewrite T1. rewrite <- NDX in O1. rewrite <- NDQ in O2. rewrite <- NDR in O3. rewrite O1, O2, O3, O4, O5, R, !Z.eqb_refl.
    assert (X2 : (zlen (v_title g) >? z_title v) = false) by (rewrite Z.gtb_ltb, Z.ltb_ge; lia).
    assert (X3 : (zlen (v_descr g) >? z_descr v) = false) by (rewrite Z.gtb_ltb, Z.ltb_ge; lia).
    assert (X5 : (zlen (v_pending g) + zlen (v_members g) >? z_size v) = false) by (rewrite Z.gtb_ltb, Z.ltb_ge; lia).
    assert (X6 : (zlen (v_asking g) >? z_size v) = false) by (rewrite Z.gtb_ltb, Z.ltb_ge; lia).
    assert (X4 : (zlen (v_pass g) =? 0) && negb (get_link g =? A_UNSAT) && negb (get_link g =? A_UNKNOWN) = false).
    { unfold get_link. rewrite A. destruct (zlen (v_pass g) =? 0) eqn:E; [|reflexivity]. apply zlen_zero in E. destruct (P4 E) as [PE|PE]; rewrite PE; reflexivity. }
    rewrite X2, X3, X4, X5, X6. cbn [negb orb]. unfold ValidateAccessControl, acc. rewrite A.
    assert (Y1 : one_of (a_attrs a) base_access = true) by (apply one_of_in; unfold base_access; cbn [In]; intuition).
    assert (Y2 : one_of (a_members a) base_access = true) by (apply one_of_in; unfold base_access; cbn [In]; intuition).
    assert (Y3 : one_of (a_link a) (base_access ++ [A_ANY; A_UNSAT]) = true).
    { apply one_of_in. unfold base_access, A_MEMBER, A_UNKNOWN, A_ADMIN, A_ANY, A_UNSAT. cbn [In app]. lia. }
    now rewrite Y1, Y2, Y3.
Qed.
Example C48_example : good v0 (w_pending [mkPending carol R_DEFAULT alice] g0) /\
  ~ good v0 (w_pending [mkPending bob R_DEFAULT alice] g0).
Proof.
  split; [apply C48_validated; vm_compute; reflexivity|]. intros H. apply C48_validated in H. vm_compute in H. discriminate.
Qed.

(* ---------- C47, C46 ---------- *)
(* No change to any group is ever accepted by ModifyGroup: its validator has zero for every limit. *)
Theorem C47_no_change_is_accepted : forall zk now seal u pw0 c g x, snd (ModifyGroup zk now seal u pw0 c g) <> Ok x.
Proof.
  intros zk now seal u pw0 c g x. unfold ModifyGroup, modify.
  destruct (if zlen pw0 =? 0 then Ok [] else dec64 pw0) as [pw|e|]; try discriminate.
  destruct (ValidateAddMember zk zero_validator g (c_add c)) as [adds|e|]; try discriminate.
  destruct (ValidateAddMembersPendingProfileKey u g (c_invite c)) as [invited|e|]; try discriminate.
  destruct (ValidateAddMembersPendingAdminApproval zk zero_validator now u pw g (c_ask c)) as [asked|e|]; try discriminate.
  destruct (run (fun x => x) (steps zk zero_validator u pw c adds invited asked) g) as [g' [[]|e|]]; try discriminate.
  destruct (getSourceUuid u g'); try discriminate. destruct seal as [[]|e|]; try discriminate.
  cbn [snd]. set (h := w_rev (c_rev c) g'). clearbody h. unfold ValidateFinalGroupState. destruct (zlen (v_title h) =? 0) eqn:E; [discriminate|].
  assert (T : (zlen (v_title h) >? z_title zero_validator) = true).
  { pose proof (zlen_nonneg (v_title h)). apply Z.eqb_neq in E. rewrite Z.gtb_ltb, Z.ltb_lt. cbn [z_title zero_validator]. lia. }
  rewrite T. discriminate.
Qed.

(* With the limits a validator is made with, the title an administrator of a valid group sets is set. *)
Lemma modify_title zk v now u g t r : NoDup (m_ids g) -> administrator u g -> u_cipher u <> [] -> t <> [] ->
  rule g (fun a => a_attrs a = A_ANY \/ a_attrs a = A_MEMBER \/ a_attrs a = A_ADMIN) ->
  let g' := w_rev r (w_title t g) in
  modify zk v now (Ok tt) u [] (only_title t r) g = (g', ValidateFinalGroupState v g').
Proof.
  intros N (m & (K & I & U) & R) NE T (a & A & P) g'.
  pose proof (source_is u g m N I K U) as S.
  assert (AT : attrs_allowed u g = Ok true).
  { unfold attrs_allowed, acc. rewrite S, A, R. destruct P as [PE|[PE|PE]]; rewrite PE; reflexivity. }
  apply zlen_pos in T.
  unfold modify. change (zlen (@nil Z) =? 0) with true. cbn [only_title c_add c_invite c_ask ValidateAddMember ValidateAddMembersPendingProfileKey ValidateAddMembersPendingAdminApproval].
  assert (RN : run (fun x => x) (steps zk v u [] (only_title t r) [] [] []) g = (w_title t g, Ok tt)).
  { unfold steps, only_title. cbn [run c_del c_roles c_pkeys c_uninvite c_accept c_title c_avatar c_timer c_attrs c_mems c_link c_unask c_approve c_pass c_descr c_annc].
    cbn [ApplyAddMembers ApplyDeleteMembers ApplyModifyMemberRoles]. unfold ApplyModifyMemberProfileKeys at 1. cbn [presentations map dups refuse].
    assert (X : w_members (map (fun m0 => match lookup_key (m_uuid m0) [] with Some k => mkMember (m_uuid m0) (m_role m0) k (m_joined m0) | None => m0 end) (v_members g)) g = g).
    { cbn [lookup_key]. rewrite map_id. now destruct g. }
    rewrite X. cbn [ApplyAddMembersPendingProfileKeys ApplyDeleteMembersPendingProfileKey]. unfold ApplyPromoteMembersPendingProfileKey at 1.
    cbn [presentations map dups refuse existsb].
    assert (Y : w_cpending (map (fun m0 => match lookup_key (m_uuid m0) [] with Some k => mkMember (m_uuid m0) (m_role m0) k ((v_rev g + 1) mod 2 ^ 32) | None => m0 end) (v_cpending g)) g = g).
    { cbn [lookup_key]. rewrite map_id. now destruct g. }
    rewrite Y. unfold ApplyModifyTitle. rewrite T, AT. cbn [refuse allowed].
    reflexivity. }
  rewrite RN. unfold getSourceUuid.
  assert (F : first_id (fun x => u_is u x (v_key (w_title t g))) (m_ids (w_title t g)) = u_cipher u).
  { unfold source in S. change (m_ids (w_title t g)) with (map m_uuid (v_members g)). change (v_key (w_title t g)) with (v_key g).
    clear - S U. induction (v_members g) as [|x l IH]; [discriminate|]. cbn [first_member map first_id] in *.
    destruct (u_is u (m_uuid x) (v_key g)); [congruence|now apply IH]. }
  rewrite F. destruct (u_cipher u) as [|z zs]; [now destruct NE|]. reflexivity.
Qed.
Theorem C47_with_limits : forall zk v now u g t r, good v g -> administrator u g -> u_cipher u <> [] ->
  rule g (fun a => a_attrs a = A_MEMBER \/ a_attrs a = A_ADMIN) -> t <> [] -> zlen t <= z_title v ->
  modify zk v now (Ok tt) u [] (only_title t r) g = (w_rev r (w_title t g), Ok tt).
Proof.
  intros zk v now u g t r G A NE (a & Ac & P) T L. rewrite modify_title; auto.
  - f_equal. apply C48_validated. destruct G. constructor; auto.
  - destruct G. unfold m_ids. rewrite nodup_app_iff in gd_once0. tauto.
  - exists a. tauto.
Qed.
Lemma g0_admin : administrator (user alice) g0.
Proof. exists (mkMember alice R_ADMIN [5] 0). split; [|reflexivity]. split; [reflexivity|]. split; [now left|reflexivity]. Qed.
Example C47_example : good v0 g0 /\ administrator (user alice) g0 /\ rule g0 (fun a => a_attrs a = A_MEMBER \/ a_attrs a = A_ADMIN) /\
  modify zk0 v0 0 (Ok tt) (user alice) [] (only_title [110] 5) g0 = (w_rev 5 (w_title [110] g0), Ok tt).
Proof.
  split; [apply C48_validated; vm_compute; reflexivity|]. split; [apply g0_admin|]. split; [|vm_compute; reflexivity].
  exists (mkAccess A_MEMBER A_MEMBER A_UNSAT). split; [reflexivity|]. now left.
Qed.
(* the claim as it stands, of ModifyGroup *)
Theorem C47_title_by_administrator_refuted : exists zk now u g t r, good v0 g /\ administrator u g /\ u_cipher u <> [] /\
  rule g (fun a => a_attrs a = A_MEMBER) /\ t <> [] /\ zlen t <= z_title v0 /\ snd (ModifyGroup zk now (Ok tt) u [] (only_title t r) g) = Err EBadRequest.
Proof.
  exists zk0, 0, (user alice), g0, [110], 5. split; [apply C48_validated; vm_compute; reflexivity|]. split; [apply g0_admin|].
  split; [discriminate|]. split; [exists (mkAccess A_MEMBER A_MEMBER A_UNSAT); split; reflexivity|]. split; [discriminate|].
  split; [vm_compute; discriminate|]. vm_compute. reflexivity.
Qed.

(* A refused change takes effect all the same: every title an administrator sets is in the group, and so is the
   revision, after ModifyGroup has said no. *)
Theorem C46_refused_title_is_set : forall zk now u g t r, NoDup (m_ids g) -> administrator u g -> u_cipher u <> [] -> t <> [] ->
  rule g (fun a => a_attrs a = A_ANY \/ a_attrs a = A_MEMBER \/ a_attrs a = A_ADMIN) ->
  exists e, ModifyGroup zk now (Ok tt) u [] (only_title t r) g = (w_rev r (w_title t g), Err e).
Proof.
  intros zk now u g t r N A NE T R. unfold ModifyGroup. pose proof (C47_no_change_is_accepted zk now (Ok tt) u [] (only_title t r) g tt) as F.
  unfold ModifyGroup in F. rewrite modify_title in * by assumption. cbn [snd] in F.
  unfold ValidateFinalGroupState in *. set (h := w_rev r (w_title t g)) in *.
  apply zlen_pos in T. assert (TT : zlen (v_title h) =? 0 = false) by exact T. rewrite TT in *.
  assert (TL : (zlen (v_title h) >? z_title zero_validator) = true).
  { pose proof (zlen_nonneg (v_title h)). apply Z.eqb_neq in TT. rewrite Z.gtb_ltb, Z.ltb_lt. cbn [z_title zero_validator]. lia. }
  rewrite TL. eauto.
Qed.
Example C46_example : NoDup (m_ids g0) /\ ModifyGroup zk0 0 (Ok tt) (user alice) [] (only_title [110] 5) g0 = (w_rev 5 (w_title [110] g0), Err EBadRequest) /\
  w_rev 5 (w_title [110] g0) <> g0.
Proof. split; [apply dups_nodup; vm_compute; reflexivity|]. split; [vm_compute; reflexivity|discriminate]. Qed.
(* Nor is it a matter of the limits: a change that removes a member and sets an empty title is refused and the
   member is gone; one that adds two, the second without a role, is refused after the first was added. *)
Theorem C46_refused_change_leaves_group_refuted : exists zk v now u c g e,
  snd (modify zk v now (Ok tt) u [] c g) = Err e /\ v_members (fst (modify zk v now (Ok tt) u [] c g)) <> v_members g.
Proof.
  exists zk0, v0, 0, (user alice), (mkActions 5 [] [bob] [] [] [] [] [] (Some []) None None None None None [] [] [] None None None), g0, EBadRequest.
  split; [vm_compute; reflexivity|]. vm_compute. discriminate.
Qed.
(* What is refused before the first action is applied leaves the group as it was; so does every action by itself,
   except adding members and approving requests. *)
Theorem C46_one_action_partial : forall zk v u pw im g g' r,
  (forall ids, ApplyDeleteMembers u im ids g = (g', r) -> r <> Ok tt -> g' = g) /\
  (forall l, ApplyModifyMemberRoles u im l g = (g', r) -> r <> Ok tt -> g' = g) /\
  (forall l, ApplyModifyMemberProfileKeys zk v u im l g = (g', r) -> r <> Ok tt -> g' = g) /\
  (forall l, ApplyAddMembersPendingProfileKeys u im l g = (g', r) -> r <> Ok tt -> g' = g) /\
  (forall ids, ApplyDeleteMembersPendingProfileKey u im ids g = (g', r) -> r <> Ok tt -> g' = g) /\
  (forall l, ApplyPromoteMembersPendingProfileKey zk v u im l g = (g', r) -> r <> Ok tt -> g' = g) /\
  (forall o, ApplyModifyTitle u im o g = (g', r) -> r <> Ok tt -> g' = g) /\
  (forall o, ApplyModifyAvatar u im o g = (g', r) -> r <> Ok tt -> g' = g) /\
  (forall o, ApplyModifyDescription u im o g = (g', r) -> r <> Ok tt -> g' = g) /\
  (forall o, ApplyModifyAttributesAccess u im o g = (g', r) -> r <> Ok tt -> g' = g) /\
  (forall o, ApplyModifyMembersAccess u im o g = (g', r) -> r <> Ok tt -> g' = g) /\
  (forall o, ApplyModifyAddFromInviteLinkAccess u im o g = (g', r) -> r <> Ok tt -> g' = g) /\
  (forall l, ApplyAddMembersPendingAdminApproval u pw im l g = (g', r) -> r <> Ok tt -> g' = g) /\
  (forall ids, ApplyDeleteMembersPendingAdminApproval u im ids g = (g', r) -> r <> Ok tt -> g' = g) /\
  (forall o, ApplyModifyInviteLinkPassword u im o g = (g', r) -> r <> Ok tt -> g' = g) /\
  (forall o, ApplyModifyAnnouncementsOnly u im o g = (g', r) -> r <> Ok tt -> g' = g).
Proof.
  intros zk v u pw im g g' r.
  assert (FR : forall b k, refuse b g k = (g', r) -> (k = (g', r) -> r <> Ok tt -> g' = g) -> r <> Ok tt -> g' = g).
  { intros b k H Hk N. destruct b; cbn [refuse] in H; [congruence|auto]. }
  assert (FA : forall b k, allowed b g k = (g', r) -> (k = (g', r) -> r <> Ok tt -> g' = g) -> r <> Ok tt -> g' = g).
  { intros b k H Hk N. destruct b as [[]|e|]; cbn [allowed] in H; [auto|congruence|congruence|congruence]. }
  assert (SA : forall f, set_acc g f = (g', r) -> r <> Ok tt -> g' = g).
  { intros f H N. unfold set_acc in H. destruct (v_acc g); congruence. }
  Ltac eat FR FA SA := first [ solve [intros; congruence]
    | let H := fresh in intros H; first [ apply (FR _ _ H) | apply (FA _ _ H) | exact (SA _ H) ]; eat FR FA SA ].
  repeat match goal with |- _ /\ _ => split end.
  - intros [|i l]; unfold ApplyDeleteMembers; eat FR FA SA.
  - intros [|i l]; unfold ApplyModifyMemberRoles; eat FR FA SA.
  - intros l. unfold ApplyModifyMemberProfileKeys. destruct (presentations zk v u im l); eat FR FA SA.
  - intros [|i l]; unfold ApplyAddMembersPendingProfileKeys; [eat FR FA SA|]. destruct (invite_check (is_admin u im) [] (i :: l)); [|eat FR FA SA|eat FR FA SA].
    destruct (source u g); eat FR FA SA.
  - intros [|i l]; unfold ApplyDeleteMembersPendingProfileKey; eat FR FA SA.
  - intros l. unfold ApplyPromoteMembersPendingProfileKey. destruct (presentations zk v u im l); eat FR FA SA.
  - intros [o|]; unfold ApplyModifyTitle; eat FR FA SA.
  - intros [o|]; unfold ApplyModifyAvatar; eat FR FA SA.
  - intros [o|]; unfold ApplyModifyDescription; eat FR FA SA.
  - intros [o|]; unfold ApplyModifyAttributesAccess; eat FR FA SA.
  - intros [o|]; unfold ApplyModifyMembersAccess; eat FR FA SA.
  - intros [o|]; unfold ApplyModifyAddFromInviteLinkAccess; eat FR FA SA.
  - intros [|i l]; unfold ApplyAddMembersPendingAdminApproval; eat FR FA SA.
  - intros [|i l]; unfold ApplyDeleteMembersPendingAdminApproval; eat FR FA SA.
  - intros [o|]; unfold ApplyModifyInviteLinkPassword; eat FR FA SA.
  - intros [o|]; unfold ApplyModifyAnnouncementsOnly; eat FR FA SA.
Qed.
(* Adding is different: the first of two is in, and both are off the waiting list, after the whole was refused. *)
Example C46_adding_breaks_off :
  let l := [mkNew carol R_DEFAULT [1] []; mkNew bob R_UNKNOWN [1] []] in
  let g := w_members [mkMember alice R_ADMIN [5] 0] (w_asking [mkAsking bob [3]] g0) in
  snd (ApplyAddMembers (user alice) [] g l g) = Err EBadRequest /\
  map m_uuid (v_members (fst (ApplyAddMembers (user alice) [] g l g))) = [alice; carol] /\
  v_asking (fst (ApplyAddMembers (user alice) [] g l g)) = [].
Proof. repeat split; vm_compute; reflexivity. Qed.

Print Assumptions C44_non_administrator.
Print Assumptions C44_only_administrators_make_administrators.
Print Assumptions C45_other_actions_do_not_matter_refuted.
Print Assumptions C45_allowed_alone_refuted.
Print Assumptions C46_refused_title_is_set.
Print Assumptions C46_refused_change_leaves_group_refuted.
Print Assumptions C46_one_action_partial.
Print Assumptions C47_no_change_is_accepted.
Print Assumptions C47_with_limits.
Print Assumptions C47_title_by_administrator_refuted.
Print Assumptions C48_validated.
