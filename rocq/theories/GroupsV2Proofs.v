(* Lemmas about the changes to groups of the second version (GroupsV2.v). *)
From Coq Require Import ZArith List Lia Bool.
From Verif Require Import Bytes Res Encodings GroupsV2.
Import ListNotations.
Open Scope Z_scope.

(* ---------- lists of ids ---------- *)
Lemma mem_in x l : mem x l = true <-> In x l.
Proof.
  unfold mem. rewrite existsb_exists. split.
  - intros (y & H & E). apply beq_eq in E. now subst.
  - intros H. exists x. split; [exact H|apply beq_refl].
Qed.
Lemma mem_notin x l : mem x l = false <-> ~ In x l.
Proof. rewrite <- mem_in. destruct (mem x l); split; congruence. Qed.
Lemma dups_nodup l : dups l = false <-> NoDup l.
Proof.
  induction l as [|x r IH]; cbn [dups]; [split; [constructor|reflexivity]|].
  rewrite orb_false_iff, mem_notin, IH. split; [intros []; now constructor|]. intros H. now inversion H.
Qed.
Lemma keys_len l : (length (keys l) <= length l)%nat.
Proof. induction l as [|x r IH]; cbn [keys]; [lia|]. destruct (mem x r); cbn [length]; lia. Qed.
Lemma keys_nodup l : length (keys l) = length l <-> NoDup l.
Proof.
  induction l as [|x r IH]; cbn [keys]; [split; [constructor|reflexivity]|].
  destruct (mem x r) eqn:E.
  - pose proof (keys_len r). split; [cbn [length]; lia|]. intros N. inversion N. apply mem_in in E. contradiction.
  - apply mem_notin in E. cbn [length]. split; [intros H; constructor; [exact E|apply IH; lia]|].
    intros N. inversion N. f_equal. now apply IH.
Qed.
Lemma existsb_false {A} (p : A -> bool) l : existsb p l = false <-> (forall x, In x l -> p x = false).
Proof.
  split.
  - intros H x I. destruct (p x) eqn:E; [|reflexivity]. rewrite <- H. symmetry. apply existsb_exists. eauto.
  - intros H. destruct (existsb p l) eqn:E; [|reflexivity]. apply existsb_exists in E. destruct E as (x & I & E).
    rewrite (H x I) in E. discriminate.
Qed.
Lemma filter_all {A} (p : A -> bool) l : (forall x, In x l -> p x = true) -> filter p l = l.
Proof.
  induction l as [|x r IH]; intros H; [reflexivity|]. cbn [filter]. rewrite (H x (or_introl eq_refl)). f_equal.
  apply IH. intros y I. apply H. now right.
Qed.
Lemma filter_nodup_map {A} (f : A -> bytes) (p : A -> bool) l : NoDup (map f l) -> NoDup (map f (filter p l)).
Proof.
  induction l as [|x r IH]; intros H; [constructor|]. inversion H as [|? ? N H']. subst. cbn [filter].
  destruct (p x); [|now apply IH]. cbn [map]. constructor; [|now apply IH].
  intros I. apply N. apply in_map_iff in I. destruct I as (y & <- & I). apply filter_In in I. now apply in_map.
Qed.
Lemma filter_map_ids {A} (f : A -> bytes) ids l :
  map f (filter (fun a => negb (mem (f a) ids)) l) = filter (fun x => negb (mem x ids)) (map f l).
Proof.
  induction l as [|x r IH]; [reflexivity|]. cbn [filter map]. destruct (negb (mem (f x) ids)); cbn [map]; now rewrite IH.
Qed.
Lemma nodup_snoc (l : list bytes) x : NoDup l -> ~ In x l -> NoDup (l ++ [x]).
Proof.
  intros N I. apply NoDup_rev in N. rewrite <- (rev_involutive (l ++ [x])). apply NoDup_rev. rewrite rev_app_distr.
  cbn [rev app]. constructor; [|exact N]. now rewrite <- in_rev.
Qed.

(* ---------- who acts ---------- *)
Lemma u_is_eq u x k : u_is u x k = true <-> u_gkey u = k /\ x = u_cipher u.
Proof.
  unfold u_is. rewrite andb_true_iff, !beq_eq. split; intros []; subst; auto.
Qed.
Lemma first_member_some p l m : first_member p l = Some m -> In m l /\ p (m_uuid m) = true.
Proof.
  induction l as [|x r IH]; cbn [first_member]; [discriminate|]. destruct (p (m_uuid x)) eqn:E.
  - intros [= ->]. split; [now left|exact E].
  - intros H. destruct (IH H). split; [now right|assumption].
Qed.
Lemma first_member_none p l : first_member p l = None -> forall m, In m l -> p (m_uuid m) = false.
Proof.
  induction l as [|x r IH]; cbn [first_member]; [intros _ ? []|]. destruct (p (m_uuid x)) eqn:E; [discriminate|].
  intros H m [<-|I]; [exact E|now apply IH].
Qed.
Lemma source_some u g m : source u g = Some m -> In m (v_members g) /\ u_gkey u = v_key g /\ m_uuid m = u_cipher u.
Proof. intros H. apply first_member_some in H. destruct H as [I E]. apply u_is_eq in E. tauto. Qed.
Lemma source_none u g m : source u g = None -> In m (v_members g) -> ~ (u_gkey u = v_key g /\ m_uuid m = u_cipher u).
Proof. intros H I C. apply (first_member_none _ _ H) in I. apply u_is_eq in C. congruence. Qed.
Lemma nodup_same (l : list member) a b : NoDup (map m_uuid l) -> In a l -> In b l -> m_uuid a = m_uuid b -> a = b.
Proof.
  induction l as [|x r IH]; intros N Ia Ib E; [destruct Ia|]. inversion N as [|? ? N1 N2]. subst.
  destruct Ia as [->|Ia], Ib as [->|Ib]; auto.
  - destruct N1. rewrite E. now apply in_map.
  - destruct N1. rewrite <- E. now apply in_map.
Qed.
Lemma source_is u g m : NoDup (m_ids g) -> In m (v_members g) -> u_gkey u = v_key g -> m_uuid m = u_cipher u -> source u g = Some m.
Proof.
  intros N I K E. destruct (source u g) as [s|] eqn:S.
  - apply source_some in S. destruct S as (Is & _ & Es). f_equal. apply (nodup_same (v_members g)); auto; congruence.
  - destruct (source_none _ _ _ S I). auto.
Qed.

(* ---------- running ---------- *)
Lemma allowed_cases b g k : allowed b g k = k /\ b = Ok true \/ fst (allowed b g k) = g /\ (forall x, snd (allowed b g k) <> Ok x).
Proof. destruct b as [[]|e|]; cbn; auto; right; split; auto; discriminate. Qed.
Lemma refuse_cases b g k : refuse b g k = k /\ b = false \/ fst (refuse b g k) = g /\ (forall x, snd (refuse b g k) <> Ok x).
Proof. destruct b; cbn; auto. right; split; auto; discriminate. Qed.
Lemma run_inv (J : v2 -> Prop) im ss :
  (forall s x, In s ss -> J x -> J (fst (s (im x) x))) -> forall g, J g -> J (fst (run im ss g)).
Proof.
  induction ss as [|s r IH]; intros H g Jg; [exact Jg|]. cbn [run]. pose proof (H s g (or_introl eq_refl) Jg) as J1.
  destruct (s (im g) g) as [g1 [[]|e|]]; cbn [fst] in *; auto. apply IH; auto. intros s' x I. apply H. now right.
Qed.
Lemma run_ok im s r g x g' : run im (s :: r) g = (g', Ok x) -> exists g1, s (im g) g = (g1, Ok tt) /\ run im r g1 = (g', Ok x).
Proof. cbn [run]. destruct (s (im g) g) as [g1 [[]|e|]]; try discriminate. eauto. Qed.

(* ---------- the final validation ---------- *)
Lemma zlen_nat {A B} (a : list A) (b : list B) : zlen a = zlen b <-> length a = length b.
Proof. unfold zlen. lia. Qed.
Lemma zlen_zero {A} (l : list A) : (zlen l =? 0) = true <-> l = [].
Proof. rewrite Z.eqb_eq. destruct l; [now split|]. unfold zlen. cbn [length]. split; [lia|discriminate]. Qed.
Lemma zlen_pos {A} (l : list A) : (zlen l =? 0) = false <-> l <> [].
Proof. rewrite <- (zlen_zero l). destruct (zlen l =? 0); split; congruence. Qed.

(* ---------- the effect of an accepted action ---------- *)
Definition newm (rev : Z) (n : newmember) : member := mkMember (n_uid n) (n_role n) (n_pkey n) ((rev + 1) mod 2 ^ 32).
Lemma add_loop_ok admin ids l : forall g g' x, add_loop admin ids l g = (g', Ok x) ->
  v_members g' = v_members g ++ map (newm (v_rev g)) l /\
  (forall n, In n l -> (n_role n = R_ADMIN -> admin = true) /\ n_role n <> R_UNKNOWN /\ n_uid n <> [] /\ n_pkey n <> []).
Proof.
  induction l as [|n r IH]; intros g g' x H; cbn [add_loop] in H.
  - injection H as <- _. split; [now rewrite app_nil_r|intros ? []].
  - destruct ((n_role n =? R_ADMIN) && negb admin) eqn:E1; [discriminate|].
    unfold refuse in H. destruct (zlen (n_uid n) =? 0) eqn:E2; [discriminate|].
    destruct (zlen (n_pkey n) =? 0) eqn:E3; [discriminate|]. destruct (n_role n =? R_UNKNOWN) eqn:E4; [discriminate|].
    apply IH in H. cbn [v_members v_rev w_asking w_pending w_members] in H. destruct H as [-> Hr]. split.
    + cbn [map]. now rewrite <- app_assoc.
    + intros m [<-|I]; [|now apply Hr]. apply zlen_pos in E2, E3. apply Z.eqb_neq in E4. repeat split; auto.
      intros A. rewrite A, Z.eqb_refl in E1. destruct admin; [reflexivity|discriminate].
Qed.

Definition opt {A} (o : option A) (d : A) : A := match o with Some x => x | None => d end.
(* [allowed] and [refuse] that end well *)
Lemma allowed_ok b g k g' x : allowed b g k = (g', Ok x) -> b = Ok true /\ k = (g', Ok x).
Proof. destruct b as [[]|e|]; cbn [allowed]; try discriminate. auto. Qed.
Lemma refuse_ok b g k g' x : refuse b g k = (g', Ok x) -> b = false /\ k = (g', Ok x).
Proof. destruct b; cbn [refuse]; try discriminate. auto. Qed.
Ltac okk H := repeat (first [ apply refuse_ok in H; destruct H as [? H] | apply allowed_ok in H; destruct H as [? H] ]).

Lemma filter_idem {A} (p q : A -> bool) l : filter p (filter q l) = filter (fun x => q x && p x) l.
Proof.
  induction l as [|x r IH]; [reflexivity|]. cbn [filter]. destruct (q x); cbn [filter andb]; [destruct (p x)|]; now rewrite IH.
Qed.
Lemma filter_twice {A} (p : A -> bool) l : filter p (filter p l) = filter p l.
Proof. rewrite filter_idem. apply filter_ext. intros x. now destruct (p x). Qed.
Lemma filter_none {A} (f : A -> bytes) l : filter (fun a => negb (mem (f a) [])) l = l.
Proof. now apply filter_all. Qed.

Lemma add_loop_fields admin ids l : forall g g' x, add_loop admin ids l g = (g', Ok x) -> l <> [] ->
  g' = w_asking (filter (fun a => negb (mem (r_uuid a) ids)) (v_asking g))
      (w_pending (filter (fun q => negb (mem (q_uuid q) ids)) (v_pending g))
      (w_members (v_members g ++ map (newm (v_rev g)) l) g)).
Proof.
  induction l as [|n r IH]; intros g g' x H NE; [now destruct NE|]. cbn [add_loop] in H.
  destruct ((n_role n =? R_ADMIN) && negb admin) eqn:E1; [discriminate|]. okk H.
  destruct r as [|n2 r].
  - cbn [add_loop] in H. injection H as <- _. reflexivity.
  - apply IH in H; [|discriminate]. subst g'. unfold w_asking, w_pending, w_members.
    cbn [v_key v_rev v_annc v_acc v_pass v_title v_avatar v_descr v_members v_pending v_asking v_casking v_cpending].
    rewrite !filter_twice. cbn [map]. rewrite <- app_assoc. reflexivity.
Qed.
Lemma eta_add g : w_asking (filter (fun a => negb (mem (r_uuid a) [])) (v_asking g))
      (w_pending (filter (fun q => negb (mem (q_uuid q) [])) (v_pending g)) (w_members (v_members g ++ []) g)) = g.
Proof. rewrite !filter_none, app_nil_r. destruct g. reflexivity. Qed.

Lemma ok_add u pw im l g g' x : ApplyAddMembers u pw im l g = (g', Ok x) ->
  g' = w_asking (filter (fun a => negb (mem (r_uuid a) (map n_uid l))) (v_asking g))
      (w_pending (filter (fun q => negb (mem (q_uuid q) (map n_uid l))) (v_pending g))
      (w_members (v_members g ++ map (newm (v_rev g)) l) g)).
Proof.
  unfold ApplyAddMembers. destruct l as [|n r].
  - intros [= <- _]. cbn [map]. now rewrite eta_add.
  - intros H. okk H. apply add_loop_fields in H; [exact H|discriminate].
Qed.
Lemma ok_del u im ids g g' x : ApplyDeleteMembers u im ids g = (g', Ok x) ->
  g' = w_members (filter (fun m => negb (mem (m_uuid m) ids)) (v_members g)) g /\ (forall i, In i ids -> In i (m_ids g)).
Proof.
  unfold ApplyDeleteMembers. destruct ids as [|i r].
  - intros [= <- _]. split; [rewrite filter_none; now destruct g|intros ? []].
  - intros H. okk H. injection H as <- _. split; [reflexivity|]. intros j J.
    match goal with E : existsb _ _ = false |- _ => rewrite existsb_false in E; specialize (E j J); now apply negb_false_iff, mem_in in E end.
Qed.
Lemma set_roles_nil ms : set_roles [] ms = ms.
Proof. induction ms as [|m r IH]; [reflexivity|]. cbn [set_roles lookup_role]. now rewrite IH. Qed.
Lemma ok_roles u im l g g' x : ApplyModifyMemberRoles u im l g = (g', Ok x) ->
  g' = w_members (set_roles l (v_members g)) g /\ roles_ok (m_ids g) [] l = true.
Proof.
  unfold ApplyModifyMemberRoles. destruct l as [|n r].
  - intros [= <- _]. rewrite set_roles_nil. split; [now destruct g|reflexivity].
  - intros H. okk H. injection H as <- _. split; [reflexivity|]. now apply negb_false_iff.
Qed.
Definition rekey (ps : list (bytes * bytes)) (m : member) : member :=
  match lookup_key (m_uuid m) ps with Some k => mkMember (m_uuid m) (m_role m) k (m_joined m) | None => m end.
Lemma ok_pkeys zk v u im l g g' x : ApplyModifyMemberProfileKeys zk v u im l g = (g', Ok x) ->
  exists ps, presentations zk v u im l = Ok ps /\ g' = w_members (map (rekey ps) (v_members g)) g.
Proof.
  unfold ApplyModifyMemberProfileKeys. destruct (presentations zk v u im l) as [ps|e|]; try discriminate.
  intros H. okk H. injection H as <- _. eauto.
Qed.
Lemma ok_uninvite u im ids g g' x : ApplyDeleteMembersPendingProfileKey u im ids g = (g', Ok x) ->
  g' = w_pending (filter (fun m => negb (mem (q_uuid m) ids)) (v_pending g)) g.
Proof.
  unfold ApplyDeleteMembersPendingProfileKey. destruct ids as [|i r].
  - intros [= <- _]. rewrite filter_none. now destruct g.
  - intros H. okk H. now injection H as <- _.
Qed.
Lemma ok_accept zk v u im l g g' x : ApplyPromoteMembersPendingProfileKey zk v u im l g = (g', Ok x) ->
  exists cp, g' = w_cpending cp g.
Proof.
  unfold ApplyPromoteMembersPendingProfileKey. destruct (presentations zk v u im l) as [ps|e|]; try discriminate.
  intros H. okk H. injection H as <- _. eauto.
Qed.
Lemma ok_title u im o g g' x : ApplyModifyTitle u im o g = (g', Ok x) -> g' = w_title (opt o (v_title g)) g.
Proof. destruct o; cbn [ApplyModifyTitle opt]; intros H; okk H; injection H as <- _; now destruct g. Qed.
Lemma ok_avatar u im o g g' x : ApplyModifyAvatar u im o g = (g', Ok x) -> g' = w_avatar (opt o (v_avatar g)) g.
Proof. destruct o; cbn [ApplyModifyAvatar opt]; intros H; okk H; injection H as <- _; now destruct g. Qed.
Lemma ok_timer u im o g g' x : ApplyModifyTimer u im o g = (g', Ok x) -> g' = g.
Proof. destruct o; cbn [ApplyModifyTimer opt]; intros H; okk H; injection H as <- _; now destruct g. Qed.
Lemma ok_descr u im o g g' x : ApplyModifyDescription u im o g = (g', Ok x) -> g' = w_descr (opt o (v_descr g)) g.
Proof. destruct o; cbn [ApplyModifyDescription opt]; intros H; okk H; injection H as <- _; now destruct g. Qed.
Lemma ok_pass u im o g g' x : ApplyModifyInviteLinkPassword u im o g = (g', Ok x) -> g' = w_pass (opt o (v_pass g)) g.
Proof. destruct o; cbn [ApplyModifyInviteLinkPassword opt]; intros H; okk H; injection H as <- _; now destruct g. Qed.
Lemma ok_annc u im o g g' x : ApplyModifyAnnouncementsOnly u im o g = (g', Ok x) -> g' = w_annc (opt o (v_annc g)) g.
Proof. destruct o; cbn [ApplyModifyAnnouncementsOnly opt]; intros H; okk H; injection H as <- _; now destruct g. Qed.
Lemma ok_ask u pw im l g g' x : ApplyAddMembersPendingAdminApproval u pw im l g = (g', Ok x) ->
  g' = w_casking (v_casking g ++ map (fun k => mkAsking (k_uid k) (k_pkey k)) l) g.
Proof.
  unfold ApplyAddMembersPendingAdminApproval. destruct l as [|n r].
  - intros [= <- _]. cbn [map]. rewrite app_nil_r. now destruct g.
  - intros H. okk H. now injection H as <- _.
Qed.
Lemma ok_unask u im ids g g' x : ApplyDeleteMembersPendingAdminApproval u im ids g = (g', Ok x) ->
  g' = w_asking (filter (fun m => negb (mem (r_uuid m) ids)) (v_asking g)) g.
Proof.
  unfold ApplyDeleteMembersPendingAdminApproval. destruct ids as [|i r].
  - intros [= <- _]. rewrite filter_none. now destruct g.
  - intros H. okk H. now injection H as <- _.
Qed.
Definition map_acc (f : access -> access) (o : option access) : option access := match o with Some a => Some (f a) | None => None end.
Lemma ok_attrs u im o g g' x : ApplyModifyAttributesAccess u im o g = (g', Ok x) ->
  g' = w_acc (map_acc (fun a => mkAccess (opt o (a_attrs a)) (a_members a) (a_link a)) (v_acc g)) g /\
  (forall y, o = Some y -> y = A_ADMIN \/ y = A_MEMBER).
Proof.
  destruct o as [y|]; cbn [ApplyModifyAttributesAccess opt]; intros H; okk H.
  - unfold set_acc in H. destruct (v_acc g) eqn:A; [|discriminate]. injection H as <- _. split; [reflexivity|]. intros z [= <-].
    match goal with E : _ && _ = false |- _ => apply andb_false_iff in E; rewrite !negb_false_iff, !Z.eqb_eq in E end. tauto.
  - injection H as <- _. split; [|discriminate]. destruct g as [? ? ? ? ? ? ? [[]|]]; reflexivity.
Qed.
Lemma ok_mems u im o g g' x : ApplyModifyMembersAccess u im o g = (g', Ok x) ->
  g' = w_acc (map_acc (fun a => mkAccess (a_attrs a) (opt o (a_members a)) (a_link a)) (v_acc g)) g /\
  (forall y, o = Some y -> y = A_ADMIN \/ y = A_MEMBER).
Proof.
  destruct o as [y|]; cbn [ApplyModifyMembersAccess opt]; intros H; okk H.
  - unfold set_acc in H. destruct (v_acc g) eqn:A; [|discriminate]. injection H as <- _. split; [reflexivity|]. intros z [= <-].
    match goal with E : _ && _ = false |- _ => apply andb_false_iff in E; rewrite !negb_false_iff, !Z.eqb_eq in E end. tauto.
  - injection H as <- _. split; [|discriminate]. destruct g as [? ? ? ? ? ? ? [[]|]]; reflexivity.
Qed.
Lemma ok_link u im o g g' x : ApplyModifyAddFromInviteLinkAccess u im o g = (g', Ok x) ->
  g' = w_acc (map_acc (fun a => mkAccess (a_attrs a) (a_members a) (opt o (a_link a))) (v_acc g)) g /\
  (forall y, o = Some y -> y = A_ADMIN \/ y = A_UNSAT \/ y = A_ANY).
Proof.
  destruct o as [y|]; cbn [ApplyModifyAddFromInviteLinkAccess opt]; intros H; okk H.
  - unfold set_acc in H. destruct (v_acc g) eqn:A; [|discriminate]. injection H as <- _. split; [reflexivity|]. intros z [= <-].
    match goal with E : _ && _ = false |- _ => rewrite !andb_false_iff, !negb_false_iff, !Z.eqb_eq in E end. tauto.
  - injection H as <- _. split; [|discriminate]. destruct g as [? ? ? ? ? ? ? [[]|]]; reflexivity.
Qed.
Lemma approve_loop_ok mm ps l : forall seen g g' x, approve_loop mm ps seen l g = (g', Ok x) ->
  exists ks, length ks = length l /\
  g' = w_members (v_members g ++ map (fun xk => mkMember (fst (fst xk)) (snd (fst xk)) (snd xk) ((v_rev g + 1) mod 2 ^ 32)) (combine l ks)) g /\
  (forall i r, In (i, r) l -> exists a, In a ps /\ r_uuid a = i).
Proof.
  assert (P : forall i ps k, last_pkey i ps = Some k -> exists a, In a ps /\ r_uuid a = i).
  { intros i qs. induction qs as [|a r IH]; intros k H; [discriminate|]. cbn [last_pkey] in H.
    destruct (last_pkey i r) eqn:E; [destruct (IH _ eq_refl) as (a1 & I & U); exists a1; split; [now right|exact U]|].
    destruct (beq i (r_uuid a)) eqn:B; [|discriminate]. apply beq_eq in B. exists a. split; [now left|auto]. }
  induction l as [|[i r] t IH]; intros seen g g' x H; cbn [approve_loop] in H.
  - injection H as <- _. exists []. split; [reflexivity|]. split; [|intros ? ? []]. cbn [combine map]. rewrite app_nil_r. now destruct g.
  - okk H. destruct (last_pkey i ps) as [k|] eqn:E; [|discriminate]. apply IH in H. destruct H as (ks & L & -> & Q).
    exists (k :: ks). split; [cbn [length]; now rewrite L|]. split.
    + unfold w_members. cbn [v_key v_rev v_annc v_acc v_pass v_title v_avatar v_descr v_members v_pending v_asking v_casking v_cpending combine map fst snd].
      now rewrite <- app_assoc.
    + intros j s [[= <- <-]|I]; [now apply (P _ _ _ E)|now apply (Q j s)].
Qed.
Lemma ok_approve u im l g g' x : ApplyPromotePendingAdminApproval u im l g = (g', Ok x) ->
  exists ks, length ks = length l /\
  g' = w_asking (filter (fun a => negb (mem (r_uuid a) (map fst l))) (v_asking g))
       (w_members (v_members g ++ map (fun xk => mkMember (fst (fst xk)) (snd (fst xk)) (snd xk) ((v_rev g + 1) mod 2 ^ 32)) (combine l ks)) g) /\
  (forall i r, In (i, r) l -> In i (r_ids g)).
Proof.
  unfold ApplyPromotePendingAdminApproval. destruct l as [|p r].
  - intros [= <- _]. exists []. split; [reflexivity|]. split; [|intros ? ? []]. cbn [map combine]. rewrite filter_none, app_nil_r. now destruct g.
  - intros H. okk H. remember (p :: r) as l. clear Heql.
    destruct (approve_loop (m_ids g) (v_asking g) [] l g) as [g1 [y|e|]] eqn:A; try discriminate.
    apply approve_loop_ok in A. destruct A as (ks & L & -> & Q). injection H as <- _. exists ks. split; [exact L|]. split; [reflexivity|].
    intros i s I. destruct (Q i s I) as (a & J & <-). unfold r_ids. now apply in_map.
Qed.
Lemma invite_check_fails u im l g : (forall n, In n l -> n_pkey n = []) -> l <> [] ->
  forall x, snd (ApplyAddMembersPendingProfileKeys u im l g) <> Ok x.
Proof.
  intros E NE x. unfold ApplyAddMembersPendingProfileKeys. destruct l as [|n r]; [now destruct NE|].
  edestruct allowed_cases as [[-> _]|[_ N]]; [|apply N]. cbn [invite_check]. rewrite (E n (or_introl eq_refl)).
  destruct (zlen (n_uid n) =? 0); discriminate.
Qed.
Lemma validate_invited_nokey l : forall r, validate_invited l = Ok r -> length r = length l /\ forall n, In n r -> n_pkey n = [].
Proof.
  induction l as [|[n|] t IH]; intros r H; cbn [validate_invited] in H; [injection H as <-; split; [reflexivity|intros ? []]| |discriminate].
  apply bind_ok in H. destruct H as (n' & H1 & H). apply bind_ok in H. destruct H as (r' & H2 & [= <-]).
  destruct (IH _ H2) as [L N]. split; [cbn [length]; now rewrite L|]. intros m [<-|I]; [|now apply N].
  unfold ValidateInvited in H1. destruct (zlen (n_uid n) =? 0); [discriminate|]. destruct (n_role n =? R_UNKNOWN); [discriminate|].
  destruct (negb (zlen (n_pres n) =? 0)); [discriminate|]. destruct (negb (zlen (n_pkey n) =? 0)); [discriminate|].
  now injection H1 as <-.
Qed.
Lemma invited_none u g l r : ValidateAddMembersPendingProfileKey u g l = Ok r -> length r = length l /\ forall n, In n r -> n_pkey n = [].
Proof.
  unfold ValidateAddMembersPendingProfileKey. destruct l as [|a l]; [intros [= <-]; split; [reflexivity|intros ? []]|].
  destruct (source u g); [|discriminate]. apply validate_invited_nokey.
Qed.

(* what a member added by an action is: the one the verified presentation names *)
Definition added_by (zk : lib) (v : validator) (g : v2) (d : adding) (n : newmember) : Prop :=
  exists m uid pk f, d_new d = Some m /\ n_pres m <> [] /\ zk (n_pres m) = Some (uid, pk) /\ z_verify v = Some f /\
  f (v_key g) (n_pres m) = true /\ zlen uid = 16 /\ n_uid n = HexToUUID (hex uid) /\ n_role n = n_role m /\ n_pkey n = pk.
Lemma adds_ok zk v g l : forall r, ValidateAddMember zk v g l = Ok r -> Forall2 (added_by zk v g) l r.
Proof.
  induction l as [|d t IH]; intros r H; cbn [ValidateAddMember] in H; [injection H as <-; constructor|].
  destruct (d_new d) as [m|] eqn:D; [|discriminate]. destruct (zlen (n_pres m) =? 0) eqn:Z0; [discriminate|].
  destruct (d_link d); [discriminate|]. apply bind_ok in H. destruct H as (n & H1 & H). apply bind_ok in H. destruct H as (r' & H2 & [= <-]).
  constructor; [|now apply IH]. unfold ValidateMember in H1. destruct (n_role m =? R_UNKNOWN); [discriminate|].
  apply zlen_pos in Z0. destruct (n_pres m) as [|p ps] eqn:P; [now destruct Z0|]. rewrite <- P in *.
  destruct (zk (n_pres m)) as [[uid pk]|] eqn:K; [|discriminate]. apply bind_ok in H1. destruct H1 as (y & V & H1).
  unfold verify in V. destruct (z_verify v) as [f|] eqn:F; [|discriminate]. destruct (f (v_key g) (n_pres m)) eqn:G; [|discriminate].
  unfold UUIDStr in H1. destruct (zlen uid =? 16) eqn:U; [|discriminate]. cbn [bind] in H1. injection H1 as <-.
  exists m, uid, pk, f. apply Z.eqb_eq in U. cbn [n_uid n_role n_pkey]. repeat split; auto.
Qed.

(* the roles an accepted change of roles leaves *)
Lemma set_roles_ids l ms : map m_uuid (set_roles l ms) = map m_uuid ms.
Proof.
  induction ms as [|m r IH]; [reflexivity|]. cbn [set_roles map]. rewrite IH. f_equal.
  destruct (lookup_role (m_uuid m) l); [|reflexivity]. destruct (mem _ _); reflexivity.
Qed.
Lemma set_roles_nodup l ms : NoDup (map m_uuid ms) ->
  set_roles l ms = map (fun m => mkMember (m_uuid m) (opt (lookup_role (m_uuid m) l) (m_role m)) (m_pkey m) (m_joined m)) ms.
Proof.
  induction ms as [|m r IH]; intros N; [reflexivity|]. cbn [map] in N. inversion N as [|? ? N1 N2]. subst.
  cbn [set_roles map]. rewrite (IH N2). f_equal. apply mem_notin in N1. rewrite N1. destruct (lookup_role (m_uuid m) l); [reflexivity|].
  now destruct m.
Qed.
Lemma roles_ok_facts ids l : forall seen, roles_ok ids seen l = true ->
  NoDup (map fst l) /\ (forall x, In x (map fst l) -> ~ In x seen) /\ forall x r, In (x, r) l -> In x ids /\ r <> R_UNKNOWN.
Proof.
  induction l as [|[x r] t IH]; intros seen H; cbn [roles_ok] in H; [repeat split; [constructor|intros ? []|destruct H0|destruct H0]|].
  rewrite !andb_true_iff, !negb_true_iff, mem_notin, mem_in in H. destruct H as ((((H1 & H2) & H3) & H4) & H5).
  apply IH in H5. destruct H5 as (A & B & C). cbn [map fst]. split; [|split].
  - constructor; [|exact A]. intros I. apply (B x I). now left.
  - intros y [<-|I]; [exact H3|]. intros J. apply (B y I). now right.
  - intros y s [[= <- <-]|I]; [split; [exact H4|now apply Z.eqb_neq]|now apply C].
Qed.
Lemma lookup_role_in x r l : NoDup (map fst l) -> In (x, r) l -> lookup_role x l = Some r.
Proof.
  induction l as [|[y s] t IH]; intros N I; [destruct I|]. cbn [map fst] in N. inversion N as [|? ? N1 N2]. subst. cbn [lookup_role].
  destruct I as [[= -> ->]|I]; [now rewrite beq_refl|]. destruct (beq x y) eqn:B; [|now apply IH].
  apply beq_eq in B. subst y. destruct N1. now apply (in_map fst) in I.
Qed.
Lemma lookup_role_none x l : ~ In x (map fst l) -> lookup_role x l = None.
Proof.
  induction l as [|[y s] t IH]; intros N; [reflexivity|]. cbn [lookup_role map fst In] in *. destruct (beq x y) eqn:B.
  - apply beq_eq in B. subst. destruct N. now left.
  - apply IH. intros I. apply N. now right.
Qed.

(* a step that cannot succeed makes the change fail *)
Lemma run_fails im a s b : (forall x y r, s x y = (r, Ok tt) -> False) -> forall g x, snd (run im (a ++ s :: b) g) <> Ok x.
Proof.
  intros F. induction a as [|t a IH]; intros g x; cbn [app run].
  - destruct (s (im g) g) as [g1 [[]|e|]] eqn:E; try discriminate. destruct (F _ _ _ E).
  - destruct (t (im g) g) as [g1 [[]|e|]]; try discriminate. apply IH.
Qed.
