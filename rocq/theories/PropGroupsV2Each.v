(* C194, C195: one change at a time to a group of the second version. C194: what an administrator asks for on its own
   is carried out, with exactly its effect. C195: leaving, declining, withdrawing and asking to join. *)
From Coq Require Import ZArith List Lia Bool.
From Verif Require Import Bytes Res Encodings GroupsV2 GroupsV2Proofs PropGroupsV2.
Import ListNotations.
Open Scope Z_scope.

(* ---------- the changes an administrator can make, and what each is to do ---------- *)
Inductive change :=
  | KRemove (ids : list bytes) | KRoles (l : list (bytes * Z)) | KUninvite (ids : list bytes)
  | KTitle (t : bytes) | KAvatar (t : bytes) | KTimer (t : bytes) | KDescr (t : bytes)
  | KAttrs (x : Z) | KMems (x : Z) | KLink (x : Z)
  | KUnask (ids : list bytes) | KApprove (l : list (bytes * Z)) | KPass (p : bytes) | KAnnc (b : bool).
(* the actions that ask for just this, for revision r *)
Definition only (k : change) (r : Z) : actions :=
  match k with
  | KRemove ids => mkActions r [] ids [] [] [] [] [] None None None None None None [] [] [] None None None
  | KRoles l => mkActions r [] [] l [] [] [] [] None None None None None None [] [] [] None None None
  | KUninvite ids => mkActions r [] [] [] [] [] ids [] None None None None None None [] [] [] None None None
  | KTitle t => mkActions r [] [] [] [] [] [] [] (Some t) None None None None None [] [] [] None None None
  | KAvatar t => mkActions r [] [] [] [] [] [] [] None (Some t) None None None None [] [] [] None None None
  | KTimer t => mkActions r [] [] [] [] [] [] [] None None (Some t) None None None [] [] [] None None None
  | KAttrs x => mkActions r [] [] [] [] [] [] [] None None None (Some x) None None [] [] [] None None None
  | KMems x => mkActions r [] [] [] [] [] [] [] None None None None (Some x) None [] [] [] None None None
  | KLink x => mkActions r [] [] [] [] [] [] [] None None None None None (Some x) [] [] [] None None None
  | KUnask ids => mkActions r [] [] [] [] [] [] [] None None None None None None [] ids [] None None None
  | KApprove l => mkActions r [] [] [] [] [] [] [] None None None None None None [] [] l None None None
  | KPass p => mkActions r [] [] [] [] [] [] [] None None None None None None [] [] [] (Some p) None None
  | KDescr t => mkActions r [] [] [] [] [] [] [] None None None None None None [] [] [] None (Some t) None
  | KAnnc b => mkActions r [] [] [] [] [] [] [] None None None None None None [] [] [] None None (Some b)
  end.
Definition without (f : bytes -> Prop) {A} (id : A -> bytes) (l l' : list A) : Prop :=
  exists keep : A -> bool, l' = filter keep l /\ forall x, In x l -> (keep x = false <-> f (id x)).
(* g' is g with the change made and revision r; nothing else differs *)
Definition made (k : change) (r : Z) (g g' : v2) : Prop :=
  match k with
  | KRemove ids => exists ms, without (fun x => In x ids) m_uuid (v_members g) ms /\ g' = w_rev r (w_members ms g)
  | KUninvite ids => exists qs, without (fun x => In x ids) q_uuid (v_pending g) qs /\ g' = w_rev r (w_pending qs g)
  | KUnask ids => exists rs, without (fun x => In x ids) r_uuid (v_asking g) rs /\ g' = w_rev r (w_asking rs g)
  | KRoles l => exists ms, g' = w_rev r (w_members ms g) /\
      Forall2 (fun m m' => m_uuid m' = m_uuid m /\ m_pkey m' = m_pkey m /\ m_joined m' = m_joined m /\
        (forall x, In (m_uuid m, x) l -> m_role m' = x) /\ (~ In (m_uuid m) (map fst l) -> m_role m' = m_role m)) (v_members g) ms
  | KTitle t => g' = w_rev r (w_title t g)
  | KAvatar t => g' = w_rev r (w_avatar t g)
  | KTimer _ => g' = w_rev r g                            (* the timer is not kept *)
  | KDescr t => g' = w_rev r (w_descr t g)
  | KAttrs x => exists a, v_acc g = Some a /\ g' = w_rev r (w_acc (Some (mkAccess x (a_members a) (a_link a))) g)
  | KMems x => exists a, v_acc g = Some a /\ g' = w_rev r (w_acc (Some (mkAccess (a_attrs a) x (a_link a))) g)
  | KLink x => exists a, v_acc g = Some a /\ g' = w_rev r (w_acc (Some (mkAccess (a_attrs a) (a_members a) x)) g)
  | KApprove l => exists ms rs, without (fun x => In x (map fst l)) r_uuid (v_asking g) rs /\
      Forall2 (fun p m => m_uuid m = fst p /\ m_role m = snd p /\ m_joined m = (v_rev g + 1) mod 2 ^ 32 /\
        In (mkAsking (fst p) (m_pkey m)) (v_asking g)) l ms /\
      g' = w_rev r (w_asking rs (w_members (v_members g ++ ms) g))
  | KPass p => g' = w_rev r (w_pass p g)
  | KAnnc b => g' = w_rev r (w_annc b g)
  end.
(* the change makes sense for the group; somebody's own membership is not ended (C195) *)
Definition fits (k : change) (u : guser) (g : v2) : Prop :=
  match k with
  | KRemove ids => ids <> [] /\ NoDup ids /\ incl ids (map m_uuid (v_members g)) /\ ~ In (u_cipher u) ids
  | KRoles l => l <> [] /\ NoDup (map fst l) /\ incl (map fst l) (map m_uuid (v_members g)) /\
      forall x r, In (x, r) l -> x <> [] /\ (r = R_DEFAULT \/ r = R_ADMIN)
  | KUninvite ids => ids <> [] /\ NoDup ids /\ incl ids (map q_uuid (v_pending g))
  | KUnask ids => ids <> [] /\ NoDup ids /\ incl ids (map r_uuid (v_asking g))
  | KApprove l => l <> [] /\ NoDup (map fst l) /\ incl (map fst l) (map r_uuid (v_asking g)) /\
      forall x r, In (x, r) l -> r = R_DEFAULT \/ r = R_ADMIN
  | KTitle t => t <> []
  | KAttrs x | KMems x => x = A_ADMIN \/ x = A_MEMBER
  | KLink x => x = A_ADMIN \/ x = A_UNSAT \/ x = A_ANY
  | _ => True
  end /\
  match k with
  | KTitle _ | KAvatar _ | KTimer _ | KDescr _ => rule g (fun a => a_attrs a = A_MEMBER \/ a_attrs a = A_ADMIN)
  | _ => True
  end.
(* the limits that go with it *)
Definition within (v : validator) (g : v2) (k : change) : Prop :=
  match k with
  | KTitle t => zlen t <= z_title v
  | KDescr t => zlen t <= z_descr v
  | KPass p => p = [] -> rule g (fun a => a_link a = A_UNSAT \/ a_link a = A_UNKNOWN)
  | KLink x => v_pass g = [] -> x = A_UNSAT
  | KApprove l => zlen (v_members g) + zlen l + zlen (v_pending g) <= z_size v
  | _ => True
  end.

(* ---------- steps that are not asked for ---------- *)
Lemma idle_pkeys zk v u im g : ApplyModifyMemberProfileKeys zk v u im [] g = (g, Ok tt).
Proof.
  unfold ApplyModifyMemberProfileKeys. cbn [presentations map dups refuse lookup_key]. rewrite map_id. now destruct g.
Qed.
Lemma idle_accept zk v u im g : ApplyPromoteMembersPendingProfileKey zk v u im [] g = (g, Ok tt).
Proof.
  unfold ApplyPromoteMembersPendingProfileKey. cbn [presentations map dups refuse existsb lookup_key]. rewrite map_id. now destruct g.
Qed.
(* the one step that is asked for *)
Definition the_step (k : change) (u : guser) (im g : v2) : out :=
  match k with
  | KRemove ids => ApplyDeleteMembers u im ids g
  | KRoles l => ApplyModifyMemberRoles u im l g
  | KUninvite ids => ApplyDeleteMembersPendingProfileKey u im ids g
  | KTitle t => ApplyModifyTitle u im (Some t) g
  | KAvatar t => ApplyModifyAvatar u im (Some t) g
  | KTimer t => ApplyModifyTimer u im (Some t) g
  | KAttrs x => ApplyModifyAttributesAccess u im (Some x) g
  | KMems x => ApplyModifyMembersAccess u im (Some x) g
  | KLink x => ApplyModifyAddFromInviteLinkAccess u im (Some x) g
  | KUnask ids => ApplyDeleteMembersPendingAdminApproval u im ids g
  | KApprove l => ApplyPromotePendingAdminApproval u im l g
  | KPass p => ApplyModifyInviteLinkPassword u im (Some p) g
  | KDescr t => ApplyModifyDescription u im (Some t) g
  | KAnnc b => ApplyModifyAnnouncementsOnly u im (Some b) g
  end.
Definition idle (s : step) : Prop := forall im g, s im g = (g, Ok tt).
Lemma run_idle s ss g : idle s -> run (fun x => x) (s :: ss) g = run (fun x => x) ss g.
Proof. intros H. cbn [run]. now rewrite H. Qed.
Lemma run_all_idle ss : Forall idle ss -> forall g, run (fun x => x) ss g = (g, Ok tt).
Proof. induction 1 as [|s ss H F IH]; intros g; [reflexivity|]. rewrite run_idle by exact H. apply IH. Qed.
Lemma run_then_idle (s : step) ss g : Forall idle ss -> run (fun x => x) (s :: ss) g = s g g.
Proof. intros H. cbn [run]. destruct (s g g) as [g' [[]|e|]]; [now apply run_all_idle|reflexivity|reflexivity]. Qed.
Ltac idling := first [exact (fun im g => idle_pkeys _ _ _ im g) | exact (fun im g => idle_accept _ _ _ im g) | (intros im0 g0; reflexivity)].
Lemma run_only zk v u pw k r g : run (fun x => x) (steps zk v u pw (only k r) [] [] []) g = the_step k u g g.
Proof.
  destruct k; unfold steps, only;
    cbn [c_del c_roles c_pkeys c_uninvite c_accept c_title c_avatar c_timer c_attrs c_mems c_link c_unask c_approve c_pass c_descr c_annc];
    repeat (rewrite run_idle by idling); rewrite run_then_idle by (repeat constructor; idling); reflexivity.
Qed.
Lemma modify_only zk v now u k r g : modify zk v now (Ok tt) u [] (only k r) g =
  match the_step k u g g with
  | (g', Ok _) => match getSourceUuid u g' with
                  | [] => (g', Err EUnauthorized)
                  | _ => (w_rev r g', ValidateFinalGroupState v (w_rev r g'))
                  end
  | o => o
  end.
Proof.
  unfold modify. change (zlen (@nil Z) =? 0) with true. cbv iota.
  assert (E : c_add (only k r) = [] /\ c_invite (only k r) = [] /\ c_ask (only k r) = [] /\ c_rev (only k r) = r) by (destruct k; auto).
  destruct E as (-> & -> & -> & ->). cbn [ValidateAddMember ValidateAddMembersPendingProfileKey ValidateAddMembersPendingAdminApproval].
  rewrite run_only. reflexivity.
Qed.

(* ---------- the step is carried out ---------- *)
Lemma without_mem {A} (id : A -> bytes) ids (l : list A) : without (fun x => In x ids) id l (filter (fun x => negb (mem (id x) ids)) l).
Proof.
  eexists. split; [reflexivity|]. intros x _. rewrite negb_false_iff. apply mem_in.
Qed.
Lemma all_there ids l : incl ids l -> existsb (fun x => negb (mem x l)) ids = false.
Proof. intros H. apply existsb_false. intros x Hx. apply negb_false_iff, mem_in, H, Hx. Qed.
Lemma roles_fine ids l : forall seen, NoDup (map fst l) -> (forall x, In x seen -> ~ In x (map fst l)) -> incl (map fst l) ids ->
  (forall x r, In (x, r) l -> x <> [] /\ (r = R_DEFAULT \/ r = R_ADMIN)) -> roles_ok ids seen l = true.
Proof.
  induction l as [|[x r] l IH]; intros seen ND HS HI HR; [reflexivity|]. cbn [roles_ok map fst] in *.
  inversion ND as [|? ? N1 N2]; subst. destruct (HR x r (or_introl eq_refl)) as [X1 X2].
  apply zlen_pos in X1. rewrite X1.
  assert (X3 : (r =? R_UNKNOWN) = false) by (unfold R_UNKNOWN, R_DEFAULT, R_ADMIN in *; lia). rewrite X3.
  assert (X4 : mem x seen = false) by (apply mem_notin; intros H; apply (HS x H); now left). rewrite X4.
  assert (X5 : mem x ids = true) by (apply mem_in, HI; now left). rewrite X5. cbn [negb andb].
  apply IH; auto.
  - intros y [<-|Hy]; [exact N1|]. intros H. apply (HS y Hy). now right.
  - intros y Hy. apply HI. now right.
  - intros y z Hy. apply HR. now right.
Qed.
Lemma roles_set l ms : NoDup (map m_uuid ms) -> NoDup (map fst l) ->
  Forall2 (fun m m' => m_uuid m' = m_uuid m /\ m_pkey m' = m_pkey m /\ m_joined m' = m_joined m /\
        (forall x, In (m_uuid m, x) l -> m_role m' = x) /\ (~ In (m_uuid m) (map fst l) -> m_role m' = m_role m)) ms (set_roles l ms).
Proof.
  intros ND NL. induction ms as [|m ms IH]; [constructor|]. cbn [set_roles map] in *. inversion ND as [|? ? N1 N2]; subst.
  constructor; [|now apply IH]. apply mem_notin in N1. destruct (lookup_role (m_uuid m) l) as [x|] eqn:E.
  - rewrite N1. cbn [m_uuid m_pkey m_joined m_role]. split; [reflexivity|]. split; [reflexivity|]. split; [reflexivity|]. split.
    + intros y Hy. rewrite (lookup_role_in _ _ _ NL Hy) in E. congruence.
    + intros H. apply lookup_role_none in H. congruence.
  - split; [reflexivity|]. split; [reflexivity|]. split; [reflexivity|]. split; [|reflexivity].
    intros y Hy. rewrite (lookup_role_in _ _ _ NL Hy) in E. discriminate.
Qed.
Lemma last_pkey_in x l : In x (map r_uuid l) -> exists k, last_pkey x l = Some k /\ In (mkAsking x k) l.
Proof.
  induction l as [|a l IH]; [intros []|]. cbn [map last_pkey]. intros H.
  destruct (last_pkey x l) as [k|] eqn:E.
  - exists k. split; [reflexivity|]. right. destruct (in_dec (list_eq_dec Z.eq_dec) x (map r_uuid l)) as [Hi|Hn].
    + destruct (IH Hi) as (k' & E' & H'). congruence.
    + exfalso. clear - E Hn. revert k E. induction l as [|b l IH]; intros k E; [discriminate|]. cbn [last_pkey map] in *.
      destruct (last_pkey x l) as [k'|]; [eapply IH; [intros HH; apply Hn; now right|reflexivity]|].
      destruct (beq x (r_uuid b)) eqn:B; [|discriminate]. apply beq_eq in B. apply Hn. now left.
  - destruct H as [H|H]; [|destruct (IH H) as (k & E' & _); discriminate]. rewrite <- H, beq_refl. exists (r_pkey a).
    split; [reflexivity|]. left. now destruct a.
Qed.
Lemma approved mm ps l : forall seen g, NoDup (map fst l) -> (forall x, In x seen -> ~ In x (map fst l)) ->
  incl (map fst l) (map r_uuid ps) -> (forall x, In x (map fst l) -> ~ In x mm) ->
  exists ms, approve_loop mm ps seen l g = (w_members (v_members g ++ ms) g, Ok tt) /\
    Forall2 (fun p m => m_uuid m = fst p /\ m_role m = snd p /\ m_joined m = (v_rev g + 1) mod 2 ^ 32 /\ In (mkAsking (fst p) (m_pkey m)) ps) l ms.
Proof.
  induction l as [|[x r] l IH]; intros seen g ND HS HI HM.
  - exists []. cbn [approve_loop]. rewrite app_nil_r. split; [now destruct g|constructor].
  - cbn [approve_loop map fst] in *. inversion ND as [|? ? N1 N2]; subst.
    assert (X4 : mem x seen = false) by (apply mem_notin; intros H; apply (HS x H); now left). rewrite X4.
    assert (X5 : mem x mm = false) by (apply mem_notin, HM; now left). rewrite X5. cbn [refuse].
    destruct (last_pkey_in x ps) as (k & -> & HK); [apply HI; now left|].
    destruct (IH (x :: seen) (w_members (v_members g ++ [mkMember x r k ((v_rev g + 1) mod 2 ^ 32)]) g)) as (ms & E & F); auto.
    + intros y [<-|Hy]; [exact N1|]. intros H. apply (HS y Hy). now right.
    + intros y Hy. apply HI. now right.
    + intros y Hy. apply HM. now right.
    + exists (mkMember x r k ((v_rev g + 1) mod 2 ^ 32) :: ms). rewrite E. split.
      * cbn [w_members v_members]. rewrite <- app_assoc. reflexivity.
      * constructor; [cbn [m_uuid m_role m_joined m_pkey fst snd]; auto|exact F].
Qed.
Lemma step_made k u g m r : NoDup (map m_uuid (v_members g) ++ map q_uuid (v_pending g) ++ map r_uuid (v_asking g)) -> acting u g m -> m_role m = R_ADMIN -> fits k u g ->
  (exists a, v_acc g = Some a) ->
  exists g', the_step k u g g = (g', Ok tt) /\ made k r g (w_rev r g') /\ v_key g' = v_key g /\ In (u_cipher u) (m_ids g').
Proof.
  intros ND (K & HI & U) R (F1 & F2) (a0 & A0). apply nodup_app_iff in ND. destruct ND as (ND & ND2 & ND3). apply nodup_app_iff in ND2. destruct ND2 as (NDq & NDr & _).
  pose proof (source_is u g m ND HI K U) as HS.
  assert (AD : is_admin u g = true) by (unfold is_admin; rewrite HS, R; reflexivity).
  assert (DA : forall ids, delete_allowed u g ids = true) by (intros ids; unfold delete_allowed; now rewrite AD).
  assert (ME : In (u_cipher u) (m_ids g)) by (rewrite <- U; now apply in_map).
  assert (AT : rule g (fun a => a_attrs a = A_MEMBER \/ a_attrs a = A_ADMIN) -> attrs_allowed u g = Ok true).
  { intros (a & A & P). unfold attrs_allowed, acc. rewrite HS, A, R. destruct P as [PE|PE]; rewrite PE; reflexivity. }
  destruct k as [ids|l|ids|t|t|t|t|x|x|x|ids|l|p|b]; cbn [the_step made].
  - destruct F1 as (NE & N & I0 & NM). unfold ApplyDeleteMembers. destruct ids as [|i0 ids0] eqn:E; [now elim NE|]. rewrite <- E in *. clear E i0 ids0 NE.
    rewrite DA. apply dups_nodup in N. rewrite N, (all_there ids (m_ids g) I0). cbn [allowed refuse]. eexists. split; [reflexivity|].
    split; [eexists; split; [apply without_mem|reflexivity]|]. split; [reflexivity|].
    unfold m_ids. cbn [w_members v_members]. rewrite <- U. apply in_map, filter_In. split; [exact HI|]. rewrite U. apply negb_true_iff, mem_notin, NM.
  - destruct F1 as (NE & N & I0 & HR). unfold ApplyModifyMemberRoles. destruct l as [|i0 l0] eqn:E; [now elim NE|]. rewrite <- E in *. clear E i0 l0 NE.
    assert (RO : roles_ok (m_ids g) [] l = true) by (apply roles_fine; auto; intros x []).
    rewrite AD, RO. cbn [allowed negb refuse]. eexists. split; [reflexivity|].
    split; [eexists; split; [reflexivity|]; now apply roles_set|]. split; [reflexivity|]. unfold m_ids. cbn [w_members v_members]. rewrite set_roles_ids. exact ME.
  - destruct F1 as (NE & N & I0). unfold ApplyDeleteMembersPendingProfileKey. destruct ids as [|i0 ids0] eqn:E; [now elim NE|]. rewrite <- E in *. clear E i0 ids0 NE.
    rewrite DA. apply dups_nodup in N. rewrite N, (all_there ids (q_ids g) I0). cbn [allowed refuse]. eexists. split; [reflexivity|].
    split; [eexists; split; [apply without_mem|reflexivity]|]. split; [reflexivity|exact ME].
  - unfold ApplyModifyTitle. apply zlen_pos in F1. rewrite F1, (AT F2). cbn [allowed refuse]. eexists. split; [reflexivity|]. split; [reflexivity|]. split; [reflexivity|exact ME].
  - unfold ApplyModifyAvatar. rewrite (AT F2). cbn [allowed refuse]. eexists. split; [reflexivity|]. split; [reflexivity|]. split; [reflexivity|exact ME].
  - unfold ApplyModifyTimer. rewrite (AT F2). cbn [allowed refuse]. eexists. split; [reflexivity|]. split; [reflexivity|]. split; [reflexivity|exact ME].
  - unfold ApplyModifyDescription. rewrite (AT F2). cbn [allowed refuse]. eexists. split; [reflexivity|]. split; [reflexivity|]. split; [reflexivity|exact ME].
  - unfold ApplyModifyAttributesAccess, set_acc. rewrite AD, A0.
    assert (X : negb (x =? A_ADMIN) && negb (x =? A_MEMBER) = false) by (unfold A_ADMIN, A_MEMBER in *; lia).
    rewrite X. cbn [allowed refuse]. eexists. split; [reflexivity|]. split; [eexists; split; reflexivity|]. split; [reflexivity|exact ME].
  - unfold ApplyModifyMembersAccess, set_acc. rewrite AD, A0.
    assert (X : negb (x =? A_ADMIN) && negb (x =? A_MEMBER) = false) by (unfold A_ADMIN, A_MEMBER in *; lia).
    rewrite X. cbn [allowed refuse]. eexists. split; [reflexivity|]. split; [eexists; split; reflexivity|]. split; [reflexivity|exact ME].
  - unfold ApplyModifyAddFromInviteLinkAccess, set_acc. rewrite AD, A0.
    assert (X : negb (x =? A_ADMIN) && negb (x =? A_UNSAT) && negb (x =? A_ANY) = false) by (unfold A_ADMIN, A_UNSAT, A_ANY in *; lia).
    rewrite X. cbn [allowed refuse]. eexists. split; [reflexivity|]. split; [eexists; split; reflexivity|]. split; [reflexivity|exact ME].
  - destruct F1 as (NE & N & I0). unfold ApplyDeleteMembersPendingAdminApproval. destruct ids as [|i0 ids0] eqn:E; [now elim NE|]. rewrite <- E in *. clear E i0 ids0 NE.
    rewrite DA. apply dups_nodup in N. rewrite N, (all_there ids (r_ids g) I0). cbn [allowed refuse]. eexists. split; [reflexivity|].
    split; [eexists; split; [apply without_mem|reflexivity]|]. split; [reflexivity|exact ME].
  - destruct F1 as (NE & N & I0 & HR). unfold ApplyPromotePendingAdminApproval. destruct l as [|i0 l0] eqn:E; [now elim NE|]. rewrite <- E in *. clear E i0 l0 NE.
    rewrite AD. cbn [allowed].
    destruct (approved (m_ids g) (v_asking g) l [] g N) as (ms & -> & FA); [intros x []|exact I0| |].
    { intros x Hx HM. apply (ND3 x HM). apply in_or_app. right. now apply I0. }
    eexists. split; [reflexivity|]. split; [|split; [reflexivity|]].
    + exists ms. eexists. split; [|split; [exact FA|reflexivity]]. cbn [w_members v_asking]. apply without_mem.
    + unfold m_ids. cbn [w_asking w_members v_members]. rewrite map_app. apply in_or_app. now left.
  - unfold ApplyModifyInviteLinkPassword. rewrite AD. cbn [allowed]. eexists. split; [reflexivity|]. split; [reflexivity|]. split; [reflexivity|exact ME].
  - unfold ApplyModifyAnnouncementsOnly. rewrite AD. cbn [allowed]. eexists. split; [reflexivity|]. split; [reflexivity|]. split; [reflexivity|exact ME].
Qed.
Lemma in_group u g : u_gkey u = v_key g -> u_cipher u <> [] -> In (u_cipher u) (m_ids g) -> getSourceUuid u g = u_cipher u.
Proof.
  intros K NE HI. unfold getSourceUuid.
  assert (F : first_id (fun x => u_is u x (v_key g)) (m_ids g) = u_cipher u).
  { induction (m_ids g) as [|x l IH]; [destruct HI|]. cbn [first_id]. destruct (u_is u x (v_key g)) eqn:E.
    - apply u_is_eq in E. tauto.
    - apply IH. destruct HI as [->|HI]; [|exact HI]. exfalso. rewrite (proj2 (u_is_eq u (u_cipher u) (v_key g))) in E by auto. discriminate. }
  rewrite F. destruct (u_cipher u); [now elim NE|reflexivity].
Qed.

(* C194. Whatever one thing an administrator asks for of a group in which nobody is listed twice, if it makes sense for
   the group, the group is afterwards the group with that change and the new revision, nothing else in it differs; it
   is accepted exactly if the group is then good. *)
Theorem C194_done : forall zk v now u g k r,
  NoDup (map m_uuid (v_members g) ++ map q_uuid (v_pending g) ++ map r_uuid (v_asking g)) -> (exists a, v_acc g = Some a) ->
  administrator u g -> u_cipher u <> [] -> fits k u g ->
  exists g', fst (modify zk v now (Ok tt) u [] (only k r) g) = g' /\ made k r g g' /\
    (snd (modify zk v now (Ok tt) u [] (only k r) g) = Ok tt <-> good v g').
Proof.
  intros zk v now u g k r ND A (m & HA & R) NE F. destruct (step_made k u g m r ND HA R F A) as (g' & E & M & KE & HI).
  assert (S0 : getSourceUuid u g' = u_cipher u) by (apply in_group; [rewrite KE; apply HA|exact NE|exact HI]).
  exists (w_rev r g'). rewrite modify_only, E, S0. destruct (u_cipher u) as [|z zs]; [now elim NE|]. cbn [fst snd].
  split; [reflexivity|]. split; [exact M|]. rewrite <- C48_validated. tauto.
Qed.
Print Assumptions C194_done.

(* Within the limits, the changed group of a good one is good, so the change is accepted. *)
Lemma without_incl {A} (id : A -> bytes) f (l l' : list A) : without f id l l' -> incl l' l /\ (NoDup (map id l) -> NoDup (map id l')) /\ zlen l' <= zlen l.
Proof.
  intros (keep & -> & _). split; [intros x H; apply filter_In in H; tauto|]. split; [apply filter_nodup_map|].
  unfold zlen. enough (length (filter keep l) <= length l)%nat by lia. induction l as [|x l IH]; [cbn; lia|]. cbn [filter length]. destruct (keep x); cbn [length]; lia.
Qed.
Lemma forall2_ids (P : member -> member -> Prop) l l' : (forall a b, P a b -> m_uuid b = m_uuid a) -> Forall2 P l l' -> map m_uuid l' = map m_uuid l.
Proof. intros H. induction 1 as [|a b l l' H1 H2 IH]; [reflexivity|]. cbn [map]. now rewrite IH, (H a b). Qed.
Lemma forall2_len {A B} (P : A -> B -> Prop) l l' : Forall2 P l l' -> length l' = length l.
Proof. induction 1; cbn [length]; congruence. Qed.
Ltac simp := cbn [w_rev w_annc w_title w_avatar w_descr w_pass w_acc w_members w_pending w_asking v_title v_descr v_members v_pending v_asking v_acc v_pass
  v_annc v_avatar] in *.
Lemma made_good v u g k r g' : good v g -> fits k u g -> within v g k -> made k r g g' -> good v g'.
Proof.
  intros [[T1 T2] D [S1 S2] O [R1 R2] (a & A & P1 & P2 & P3 & P4)] (F1 & F2) W M.
  pose proof O as OO. apply nodup_app_iff in OO. destruct OO as (O1 & O2 & O3). apply nodup_app_iff in O2. destruct O2 as (O2 & O4 & O5).
  destruct k as [ids|l|ids|t|t|t|t|x|x|x|ids|l|p|b]; cbn [made within] in *.
  - destruct M as (ms & HW & ->). destruct (without_incl _ _ _ _ HW) as (I1 & I2 & I3). constructor; simp; [auto|exact D|lia| |split; [|exact R2]; intros m Hm; apply R1, I1, Hm|exists a; auto 10].
    apply nodup_app_iff. split; [now apply I2|]. split; [apply nodup_app_iff; auto|]. intros y Hy. apply O3. apply in_map_iff in Hy. destruct Hy as (m & <- & Hm). apply in_map, I1, Hm.
  - destruct M as (ms & -> & HF). constructor; simp; [auto|exact D| | | |exists a; auto 10].
    + apply forall2_len in HF. unfold zlen in *. lia.
    + rewrite (forall2_ids _ _ _ (fun a b H => proj1 H) HF). exact O.
    + split; [|exact R2]. intros m Hm. destruct F1 as (_ & _ & _ & F1).
      assert (G : exists m0, In m0 (v_members g) /\ (forall x, In (m_uuid m0, x) l -> m_role m = x) /\ (~ In (m_uuid m0) (map fst l) -> m_role m = m_role m0)).
      { clear - HF Hm. induction HF as [|x y l1 l2 H HF IH]; [destruct Hm|]. destruct Hm as [<-|Hm]; [exists x; split; [now left|tauto]|].
        destruct (IH Hm) as (m0 & H0 & H1). exists m0. split; [now right|exact H1]. }
      destruct G as (m0 & H0 & H1 & H2). destruct (in_dec (list_eq_dec Z.eq_dec) (m_uuid m0) (map fst l)) as [HI|HN].
      * apply in_map_iff in HI. destruct HI as ([y z] & E & HI). cbn [fst] in E. subst y. rewrite (H1 _ HI). now apply F1 in HI.
      * rewrite (H2 HN). now apply R1.
  - destruct M as (ms & HW & ->). destruct (without_incl _ _ _ _ HW) as (I1 & I2 & I3). constructor; simp; [auto|exact D|lia| | |exists a; auto 10].
    + apply nodup_app_iff. split; [exact O1|]. split.
      * apply nodup_app_iff. split; [now apply I2|]. split; [exact O4|]. intros y Hy. apply O5. apply in_map_iff in Hy. destruct Hy as (m & <- & Hm). apply in_map, I1, Hm.
      * intros y Hy Hz. apply (O3 y Hy). apply in_app_or in Hz. apply in_or_app. destruct Hz as [Hz|Hz]; [left|now right].
        apply in_map_iff in Hz. destruct Hz as (m & <- & Hm). apply in_map, I1, Hm.
    + split; [exact R1|]. intros q Hq. apply R2, I1, Hq.
  - subst g'. constructor; simp; auto. exists a; auto 10.
  - subst g'. constructor; simp; auto. exists a; auto 10.
  - subst g'. constructor; simp; auto. exists a; auto 10.
  - subst g'. constructor; simp; auto. exists a; auto 10.
  - destruct M as (a' & A' & ->). rewrite A in A'. injection A' as <-. constructor; simp; auto. eexists. split; [reflexivity|]. cbn [a_attrs a_members a_link]. split; [tauto|auto].
  - destruct M as (a' & A' & ->). rewrite A in A'. injection A' as <-. constructor; simp; auto. eexists. split; [reflexivity|]. cbn [a_attrs a_members a_link]. split; [tauto|]. split; [tauto|auto].
  - destruct M as (a' & A' & ->). rewrite A in A'. injection A' as <-. constructor; simp; auto. eexists. split; [reflexivity|]. cbn [a_attrs a_members a_link]. split; [tauto|]. split; [tauto|].
    split; [unfold A_ADMIN, A_UNSAT, A_ANY in *; lia|]. auto.
  - destruct M as (ms & HW & ->). destruct (without_incl _ _ _ _ HW) as (I1 & I2 & I3). constructor; simp; [auto|exact D|lia| |auto|exists a; auto 10].
    apply nodup_app_iff. split; [exact O1|]. split.
    + apply nodup_app_iff. split; [exact O2|]. split; [now apply I2|]. intros y Hy Hz. apply (O5 y Hy). apply in_map_iff in Hz. destruct Hz as (m & <- & Hm). apply in_map, I1, Hm.
    + intros y Hy Hz. apply (O3 y Hy). apply in_app_or in Hz. apply in_or_app. destruct Hz as [Hz|Hz]; [now left|right].
      apply in_map_iff in Hz. destruct Hz as (m & <- & Hm). apply in_map, I1, Hm.
  - destruct M as (ms & rs & HW & HF & ->). pose proof HW as (keep & KE & KK). destruct (without_incl _ _ _ _ HW) as (I1 & I2 & I3).
    assert (LM : map m_uuid ms = map fst l).
    { clear - HF. induction HF as [|p m l ms H HF IH]; [reflexivity|]. cbn [map]. rewrite IH. destruct H as (-> & _). reflexivity. }
    destruct F1 as (_ & FN & FI & FR).
    assert (NM : forall y, In y (map fst l) -> ~ In y (map r_uuid rs)).
    { intros y Hy Hz. apply in_map_iff in Hz. destruct Hz as (q & <- & Hq). rewrite KE in Hq. apply filter_In in Hq. destruct Hq as [Hq HK].
      apply (KK q Hq) in Hy. congruence. }
    assert (RI : forall y, In y (map r_uuid rs) -> In y (map r_uuid (v_asking g))).
    { intros y Hy. apply in_map_iff in Hy. destruct Hy as (q & <- & Hq). apply in_map, I1, Hq. }
    constructor; simp; [auto|exact D| | | |exists a; auto 10].
    + split; [|lia]. pose proof (forall2_len _ _ _ HF) as HL. unfold zlen in *. rewrite app_length. lia.
    + rewrite map_app, LM. apply nodup_app_iff. split; [|split].
      * apply nodup_app_iff. split; [exact O1|]. split; [exact FN|]. intros y Hy Hz. apply (O3 y Hy). apply in_or_app. right. now apply FI.
      * apply nodup_app_iff. split; [exact O2|]. split; [now apply I2|]. intros y Hy Hz. apply (O5 y Hy). now apply RI.
      * intros y Hy Hz. apply in_app_or in Hy. destruct Hy as [Hy|Hy].
        -- apply (O3 y Hy). apply in_app_or in Hz. apply in_or_app. destruct Hz as [Hz|Hz]; [now left|right; now apply RI].
        -- apply in_app_or in Hz. destruct Hz as [Hz|Hz]; [apply (O5 y Hz); now apply FI|exact (NM y Hy Hz)].
    + split; [|exact R2]. intros m Hm. apply in_app_or in Hm. destruct Hm as [Hm|Hm]; [now apply R1|].
      clear - HF Hm FR. induction HF as [|p q l ms H HF IH]; [destruct Hm|]. destruct Hm as [<-|Hm].
      * destruct H as (_ & -> & _). destruct p as [y z]. apply (FR y z). now left.
      * apply IH; [intros y z Hy; apply (FR y z); now right|exact Hm].
  - subst g'. constructor; simp; auto. exists a. split; [exact A|]. split; [exact P1|]. split; [exact P2|]. split; [exact P3|].
    intros E. destruct (W E) as (a' & A' & X). rewrite A in A'. injection A' as <-. tauto.
  - subst g'. constructor; simp; auto. exists a; auto 10.
Qed.
Theorem C194_accepted : forall zk v now u g k r, good v g -> administrator u g -> u_cipher u <> [] -> fits k u g -> within v g k ->
  exists g', modify zk v now (Ok tt) u [] (only k r) g = (g', Ok tt) /\ made k r g g'.
Proof.
  intros zk v now u g k r G A NE F W. pose proof G as [_ _ _ O _ (a & AC & _)].
  destruct (C194_done zk v now u g k r O (ex_intro _ a AC) A NE F) as (g' & E1 & M & E2).
  exists g'. split; [|exact M]. rewrite (surjective_pairing (modify _ _ _ _ _ _ _ _)), E1. f_equal. apply E2. eapply made_good; eauto.
Qed.
Print Assumptions C194_accepted.

(* Example: a group of alice (who may do everything) and bob, in which carol asks to be a member; alice lets carol in as
   an administrator, makes bob an administrator, removes bob. *)
Definition g9 : v2 := w_asking [mkAsking carol [7]] g0.
Example C194_example : good v0 g9 /\ administrator (user alice) g9 /\
  fits (KApprove [(carol, R_ADMIN)]) (user alice) g9 /\ within v0 g9 (KApprove [(carol, R_ADMIN)]) /\
  fits (KRoles [(bob, R_ADMIN)]) (user alice) g9 /\ fits (KRemove [bob]) (user alice) g9 /\
  modify zk0 v0 0 (Ok tt) (user alice) [] (only (KApprove [(carol, R_ADMIN)]) 5) g9 =
    (w_rev 5 (w_asking [] (w_members (v_members g9 ++ [mkMember carol R_ADMIN [7] 5]) g9)), Ok tt) /\
  modify zk0 v0 0 (Ok tt) (user alice) [] (only (KRoles [(bob, R_ADMIN)]) 5) g9 =
    (w_rev 5 (w_members [mkMember alice R_ADMIN [5] 0; mkMember bob R_ADMIN [6] 1] g9), Ok tt) /\
  modify zk0 v0 0 (Ok tt) (user alice) [] (only (KRemove [bob]) 5) g9 = (w_rev 5 (w_members [mkMember alice R_ADMIN [5] 0] g9), Ok tt).
Proof.
  split; [apply C48_validated; vm_compute; reflexivity|]. split; [exact g0_admin|].
  assert (ND1 : forall x : bytes, NoDup [x]) by (intros x; constructor; [intros []|constructor]).
  split.
  { split; [|exact Logic.I]. split; [discriminate|]. split; [apply ND1|]. split; [intros x [<-|[]]; now left|]. intros x r [E|[]]. injection E as <- <-. now right. }
  split; [vm_compute; discriminate|]. split.
  { split; [|exact Logic.I]. split; [discriminate|]. split; [apply ND1|]. split; [intros x [<-|[]]; right; now left|].
    intros x r [E|[]]. injection E as <- <-. split; [discriminate|now right]. }
  split.
  { split; [|exact Logic.I]. split; [discriminate|]. split; [apply ND1|]. split; [intros x [<-|[]]; right; now left|].
    intros [E|[]]. discriminate E. }
  split; [vm_compute; reflexivity|]. split; vm_compute; reflexivity.
Qed.

(* ---------- C195 ---------- *)
Lemma not_in_group u g : u_gkey u = v_key g -> ~ In (u_cipher u) (m_ids g) -> ~ In (u_cipher u) (q_ids g) -> ~ In (u_cipher u) (r_ids g) ->
  getSourceUuid u g = [].
Proof.
  intros K N1 N2 N3.
  assert (F : forall l, ~ In (u_cipher u) l -> first_id (fun x => u_is u x (v_key g)) l = []).
  { induction l as [|x l IH]; intros N; [reflexivity|]. cbn [first_id]. destruct (u_is u x (v_key g)) eqn:E.
    - apply u_is_eq in E. destruct E as [_ E]. elim N. now left.
    - apply IH. intros H. apply N. now right. }
  unfold getSourceUuid. now rewrite !F.
Qed.
Lemma gone {A} (id : A -> bytes) x l : ~ In x (map id (filter (fun a => negb (mem (id a) [x])) l)).
Proof.
  intros H. apply in_map_iff in H. destruct H as (a & E & H). apply filter_In in H. destruct H as [_ H].
  apply negb_true_iff, mem_notin in H. apply H. now left.
Qed.
Lemma out_of_it u g : u_gkey u = v_key g -> delete_allowed u g [u_cipher u] = true.
Proof. intros K. unfold delete_allowed, just_me. rewrite (proj2 (u_is_eq u (u_cipher u) (v_key g))) by auto. apply orb_true_r. Qed.
(* Whoever ends their own part in a group is told that they may not, whatever the validator; but they are out of the
   group of the store that the call was made on, and the revision is not the new one. Leaving: *)
Theorem C195_leaving : forall zk v now u g r, u_gkey u = v_key g ->
  NoDup (map m_uuid (v_members g) ++ map q_uuid (v_pending g) ++ map r_uuid (v_asking g)) ->
  In (u_cipher u) (map m_uuid (v_members g)) ->
  exists ms, without (fun x => x = u_cipher u) m_uuid (v_members g) ms /\
    modify zk v now (Ok tt) u [] (only (KRemove [u_cipher u]) r) g = (w_members ms g, Err EUnauthorized).
Proof.
  intros zk v now u g r K ND HI. apply nodup_app_iff in ND. destruct ND as (_ & _ & ND).
  exists (filter (fun m => negb (mem (m_uuid m) [u_cipher u])) (v_members g)). split.
  { eexists. split; [reflexivity|]. intros m _. rewrite negb_false_iff, mem_in. cbn [In]. intuition congruence. }
  rewrite modify_only. cbn [the_step ApplyDeleteMembers]. rewrite out_of_it by exact K. cbn [allowed dups mem existsb orb refuse].
  fold (mem (u_cipher u) (m_ids g)). rewrite (proj2 (mem_in (u_cipher u) (m_ids g)) HI). cbn [negb orb refuse].
  rewrite not_in_group; [reflexivity|exact K| | |].
  - apply gone.
  - intros H. apply (ND _ HI). apply in_or_app. now left.
  - intros H. apply (ND _ HI). apply in_or_app. now right.
Qed.
(* declining an invitation: *)
Theorem C195_declining : forall zk v now u g r, u_gkey u = v_key g ->
  NoDup (map m_uuid (v_members g) ++ map q_uuid (v_pending g) ++ map r_uuid (v_asking g)) ->
  In (u_cipher u) (map q_uuid (v_pending g)) ->
  exists qs, without (fun x => x = u_cipher u) q_uuid (v_pending g) qs /\
    modify zk v now (Ok tt) u [] (only (KUninvite [u_cipher u]) r) g = (w_pending qs g, Err EUnauthorized).
Proof.
  intros zk v now u g r K ND HI. apply nodup_app_iff in ND. destruct ND as (_ & ND2 & ND). apply nodup_app_iff in ND2. destruct ND2 as (_ & _ & ND2).
  exists (filter (fun m => negb (mem (q_uuid m) [u_cipher u])) (v_pending g)). split.
  { eexists. split; [reflexivity|]. intros m _. rewrite negb_false_iff, mem_in. cbn [In]. intuition congruence. }
  rewrite modify_only. cbn [the_step ApplyDeleteMembersPendingProfileKey]. rewrite out_of_it by exact K. cbn [allowed dups mem existsb orb refuse].
  fold (mem (u_cipher u) (q_ids g)). rewrite (proj2 (mem_in (u_cipher u) (q_ids g)) HI). cbn [negb orb refuse].
  rewrite not_in_group; [reflexivity|exact K| | |].
  - intros H. apply (ND _ H). apply in_or_app. now left.
  - apply gone.
  - intros H. exact (ND2 _ HI H).
Qed.
(* withdrawing a request to join: *)
Theorem C195_withdrawing : forall zk v now u g r, u_gkey u = v_key g ->
  NoDup (map m_uuid (v_members g) ++ map q_uuid (v_pending g) ++ map r_uuid (v_asking g)) ->
  In (u_cipher u) (map r_uuid (v_asking g)) ->
  exists rs, without (fun x => x = u_cipher u) r_uuid (v_asking g) rs /\
    modify zk v now (Ok tt) u [] (only (KUnask [u_cipher u]) r) g = (w_asking rs g, Err EUnauthorized).
Proof.
  intros zk v now u g r K ND HI. apply nodup_app_iff in ND. destruct ND as (_ & ND2 & ND). apply nodup_app_iff in ND2. destruct ND2 as (_ & _ & ND2).
  exists (filter (fun m => negb (mem (r_uuid m) [u_cipher u])) (v_asking g)). split.
  { eexists. split; [reflexivity|]. intros m _. rewrite negb_false_iff, mem_in. cbn [In]. intuition congruence. }
  rewrite modify_only. cbn [the_step ApplyDeleteMembersPendingAdminApproval]. rewrite out_of_it by exact K. cbn [allowed dups mem existsb orb refuse].
  fold (mem (u_cipher u) (r_ids g)). rewrite (proj2 (mem_in (u_cipher u) (r_ids g)) HI). cbn [negb orb refuse].
  rewrite not_in_group; [reflexivity|exact K| | |].
  - intros H. apply (ND _ H). apply in_or_app. now right.
  - intros H. exact (ND2 _ H HI).
  - apply gone.
Qed.
(* asking to join, with the password of the link: the request is only put on a list that is not part of what is
   checked and kept of the group, and the answer is no; with another password nothing happens. *)
Definition only_ask (k : newasking) (r : Z) : actions := mkActions r [] [] [] [] [] [] [] None None None None None None [Some k] [] [] None None None.
Theorem C195_asking : forall zk v now u pw0 pw g r pres pk, given pw0 pw -> u_gkey u = v_key g ->
  ~ In (u_cipher u) (map m_uuid (v_members g) ++ map q_uuid (v_pending g) ++ map r_uuid (v_asking g)) ->
  rule g (fun a => a_link a = A_ADMIN) -> pres <> [] -> zk pres = Some (u_cipher u, pk) -> verify v (v_key g) pres = Ok tt ->
  modify zk v now (Ok tt) u pw0 (only_ask (mkNewAsking [] [] pres 0) r) g =
    (if list_eq_dec Z.eq_dec (v_pass g) pw then w_casking (v_casking g ++ [mkAsking (u_cipher u) pk]) g else g, Err EUnauthorized).
Proof.
  intros zk v now u pw0 pw g r pres pk G K N (a & A & L) P Z0 V.
  assert (NI : ~ In (u_cipher u) (m_ids g) /\ ~ In (u_cipher u) (q_ids g) /\ ~ In (u_cipher u) (r_ids g)).
  { split; [|split]; intros H; apply N; apply in_or_app; [now left|right; apply in_or_app; now left|right; apply in_or_app; now right]. }
  destruct NI as (N1 & N2 & N3).
  assert (E0 : (if zlen pw0 =? 0 then Ok [] else dec64 pw0) = Ok pw).
  { destruct G as [[-> ->]|[NE E]]; [reflexivity|]. apply zlen_pos in NE. now rewrite NE. }
  unfold modify. rewrite E0. cbn [only_ask c_add c_invite c_ask ValidateAddMember ValidateAddMembersPendingProfileKey ValidateAddMembersPendingAdminApproval].
  destruct (list_eq_dec Z.eq_dec (v_pass g) pw) as [EP|NP].
  2:{ destruct (beq pw (v_pass g)) eqn:B; [apply beq_eq in B; now elim NP|reflexivity]. }
  rewrite <- EP, beq_refl. cbn [validate_asking]. unfold ValidateAsking. cbn [k_uid k_pkey k_pres k_time]. change (zlen (@nil Z) =? 0) with true.
  apply zlen_pos in P. rewrite P, Z0, V. change (0 =? 0) with true. cbn [negb bind]. rewrite (proj2 (u_is_eq u (u_cipher u) (v_key g))) by auto. cbn [bind].
  set (asked := [mkNewAsking (u_cipher u) pk pres now]).
  assert (RN : run (fun x => x) (steps zk v u (v_pass g) (only_ask (mkNewAsking [] [] pres 0) r) [] [] asked) g =
    (w_casking (v_casking g ++ [mkAsking (u_cipher u) pk]) g, Ok tt)).
  { unfold steps, only_ask. cbn [c_del c_roles c_pkeys c_uninvite c_accept c_title c_avatar c_timer c_attrs c_mems c_link c_unask c_approve c_pass c_descr c_annc].
    repeat (rewrite run_idle by idling). rewrite run_then_idle by (repeat constructor; idling).
    unfold asked, ApplyAddMembersPendingAdminApproval, ask_allowed, acc. rewrite A, L, beq_refl. change (A_ADMIN =? A_ADMIN) with true.
    cbn [andb allowed map k_uid k_pkey dups mem existsb orb]. fold (mem (u_cipher u) (m_ids g)) (mem (u_cipher u) (q_ids g)) (mem (u_cipher u) (r_ids g)).
    apply mem_notin in N1. apply mem_notin in N2. apply mem_notin in N3. rewrite N1, N2, N3. cbn [orb refuse just_me].
    rewrite (proj2 (u_is_eq u (u_cipher u) (v_key g))) by auto. reflexivity. }
  rewrite RN, not_in_group; [reflexivity|exact K|exact N1|exact N2|exact N3].
Qed.
(* Examples: bob leaves the group of alice and bob; carol asks to join it through the link. *)
Definition g10 : v2 := w_pass [7] (w_acc (Some (mkAccess A_MEMBER A_MEMBER A_ADMIN)) g0).
Definition dave : bytes := repeat 4 16.
Example C195_example :
  good v0 g0 /\ modify zk0 v0 0 (Ok tt) (user bob) [] (only (KRemove [bob]) 5) g0 = (w_members [mkMember alice R_ADMIN [5] 0] g0, Err EUnauthorized) /\
  good v0 g10 /\ given pass7 [7] /\ ~ In (u_cipher (user dave)) (map m_uuid (v_members g10) ++ map q_uuid (v_pending g10) ++ map r_uuid (v_asking g10)) /\
  zk0 [4] = Some (dave, [4; 4]) /\ verify v0 (v_key g10) [4] = Ok tt /\
  modify zk0 v0 0 (Ok tt) (user dave) pass7 (only_ask (mkNewAsking [] [] [4] 0) 5) g10 = (w_casking [mkAsking dave [4; 4]] g10, Err EUnauthorized).
Proof.
  split; [apply C48_validated; vm_compute; reflexivity|]. split; [vm_compute; reflexivity|]. split; [apply C48_validated; vm_compute; reflexivity|].
  split; [right; split; [discriminate|vm_compute; reflexivity]|]. split; [intros [H|[H|[]]]; discriminate H|]. split; [reflexivity|]. split; vm_compute; reflexivity.
Qed.
(* the claim as it stands *)
Theorem C195_own_part_refuted : exists zk v now u g r, good v g /\ belongs u g /\ u_cipher u <> [] /\
  snd (modify zk v now (Ok tt) u [] (only (KRemove [u_cipher u]) r) g) = Err EUnauthorized /\
  ~ In (u_cipher u) (map m_uuid (v_members (fst (modify zk v now (Ok tt) u [] (only (KRemove [u_cipher u]) r) g)))).
Proof.
  exists zk0, v0, 0, (user bob), g0, 5. split; [apply C48_validated; vm_compute; reflexivity|].
  split; [exists (mkMember bob R_DEFAULT [6] 1); split; [reflexivity|]; split; [right; now left|reflexivity]|]. split; [discriminate|].
  split; [vm_compute; reflexivity|]. intros [H|[]]. discriminate H.
Qed.
Print Assumptions C195_leaving.
Print Assumptions C195_declining.
Print Assumptions C195_withdrawing.
Print Assumptions C195_asking.
Print Assumptions C195_own_part_refuted.
