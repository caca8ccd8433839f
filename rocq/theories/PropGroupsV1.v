(* Old style groups: C43 leaving is effective, C87 a group message reaches every other member, C88 one
   unreachable member does not keep it from the others, C89 renaming keeps the members, C90 groups survive a
   restart. *)
From Coq Require Import ZArith List Lia Bool.
From Verif Require Import Bytes Res Crypto Encodings PropEncodings Contacts GroupsV1.
Import ListNotations.
Open Scope Z_scope.

(* ---- the tables ---- *)
Lemma gfind_put k k' g t : gfind k (gput k' g t) = if beq k k' then Some g else gfind k t.
Proof.
  induction t as [|[x d] r IH]; cbn [gput gfind]; [reflexivity|].
  destruct (beq k' x) eqn:E.
  - apply beq_eq in E. subst x. cbn [gfind]. destruct (beq k k'); reflexivity.
  - cbn [gfind]. rewrite IH. destruct (beq k x) eqn:F; [|reflexivity]. apply beq_eq in F. subst x. rewrite beq_sym, E. reflexivity.
Qed.
Lemma gfind_del k k' t : gfind k (gdel k' t) = if beq k k' then None else gfind k t.
Proof.
  induction t as [|[x d] r IH]; cbn [gdel gfind]; [now destruct (beq k k')|].
  destruct (beq k' x) eqn:E.
  - apply beq_eq in E. subst x. rewrite IH. destruct (beq k k'); reflexivity.
  - cbn [gfind]. rewrite IH. destruct (beq k x) eqn:F; [|reflexivity]. apply beq_eq in F. subst x. rewrite beq_sym, E. reflexivity.
Qed.
Lemma in_gput k g t x d : In (x, d) (gput k g t) -> (x = k /\ d = g) \/ In (x, d) t.
Proof.
  induction t as [|[y e] r IH]; cbn [gput In].
  - intros [H|[]]. injection H as <- <-. auto.
  - destruct (beq k y); cbn [In]; intros [H|H]; auto.
    + injection H as <- <-. auto.
    + destruct (IH H); auto.
Qed.
Lemma in_gdel k t x d : In (x, d) (gdel k t) -> In (x, d) t.
Proof.
  induction t as [|[y e] r IH]; cbn [gdel In]; auto. destruct (beq k y); cbn [In]; intros; intuition.
Qed.
Definition uniq (t : gtable) : Prop := NoDup (map fst t).
Lemma uniq_put k g t : uniq t -> uniq (gput k g t).
Proof.
  unfold uniq. induction t as [|[y e] r IH]; cbn [gput map fst]; intros H.
  - constructor; [intros []|constructor].
  - inversion H as [|? ? N D]; subst. destruct (beq k y) eqn:E; cbn [map fst].
    + apply beq_eq in E. subst y. now constructor.
    + constructor; [|now apply IH]. intros I. apply in_map_iff in I. destruct I as ([z d] & Hz & I). cbn [fst] in Hz. subst z.
      apply in_gput in I. destruct I as [[-> _]|I]; [now rewrite beq_refl in E|]. apply N. apply in_map_iff. now exists (y, d).
Qed.
Lemma uniq_del k t : uniq t -> uniq (gdel k t).
Proof.
  unfold uniq. induction t as [|[y e] r IH]; cbn [gdel map fst]; intros H; [constructor|].
  inversion H as [|? ? N D]; subst. destruct (beq k y); [now apply IH|]. cbn [map fst]. constructor; [|now apply IH].
  intros I. apply in_map_iff in I. destruct I as ([z d] & Hz & I). cbn [fst] in Hz. subst z. apply in_gdel in I. apply N.
  apply in_map_iff. now exists (y, d).
Qed.

(* loading the files gives, for every file whose path does not contain "avatar", the group in it *)
Lemma load_find dir fs : forall t k, uniq fs ->
  gfind k (fold_left (fun t kg => if contains avatar_text (idToPath dir (fst kg)) then t else gput (fst kg) (snd kg) t) fs t)
  = if contains avatar_text (idToPath dir k) then gfind k t else match gfind k fs with Some g => Some g | None => gfind k t end.
Proof.
  induction fs as [|[x d] fs IH]; intros t k U; cbn [fold_left gfind fst snd]; [now destruct (contains _ _)|].
  inversion U as [|? ? N D]; subst. rewrite IH by exact D. destruct (beq k x) eqn:E.
  - apply beq_eq in E. subst x. destruct (contains avatar_text (idToPath dir k)); [reflexivity|].
    assert (F : gfind k fs = None).
    { destruct (gfind k fs) as [g|] eqn:F; [|reflexivity]. exfalso. apply N. cbn [fst]. clear - F. induction fs as [|[y e] fs IH]; [discriminate|].
      cbn [gfind map fst In] in *. destruct (beq k y) eqn:E; [apply beq_eq in E; auto|auto]. }
    rewrite F, gfind_put, beq_refl. reflexivity.
  - destruct (contains avatar_text (idToPath dir x)); [reflexivity|]. rewrite !gfind_put, E. reflexivity.
Qed.
Lemma restart_find dir s k : uniq (gs_files s) ->
  gfind k (gs_map (grestart dir s)) = if contains avatar_text (idToPath dir k) then None else gfind k (gs_files s).
Proof.
  intros U. unfold grestart, setupGroups. cbn [gs_map gs_files]. rewrite load_find by exact U. cbn [gfind].
  destruct (contains _ _); [reflexivity|]. now destruct (gfind k (gs_files s)).
Qed.

(* ---- C43: somebody else leaves ---- *)
Definition count (x : bytes) (l : list bytes) : nat := length (filter (beq x) l).

(* one occurrence goes; the others remain, in order *)
Theorem C43_member_removed : forall tel ms,
  others tel (removeMember tel ms) = others tel ms
  /\ count tel (removeMember tel ms) = pred (count tel ms)
  /\ (count tel ms <= 1 -> ~ In tel (removeMember tel ms))%nat.
Proof.
  intros tel ms. assert (X : others tel (removeMember tel ms) = others tel ms /\ count tel (removeMember tel ms) = pred (count tel ms)).
  { unfold others, count. induction ms as [|m ms [IH1 IH2]]; [split; reflexivity|]. cbn [removeMember filter]. destruct (beq m tel) eqn:E.
    - rewrite (beq_sym tel m), E. split; reflexivity.
    - cbn [filter]. rewrite (beq_sym tel m), E. cbn [negb]. split; [now f_equal|exact IH2]. }
  destruct X as [X1 X2]. split; [exact X1|]. split; [exact X2|]. intros C I.
  assert (L : (1 <= count tel (removeMember tel ms))%nat).
  { unfold count. assert (J : In tel (filter (beq tel) (removeMember tel ms))) by (apply filter_In; split; [exact I|apply beq_refl]).
    destruct (filter (beq tel) (removeMember tel ms)); [destruct J|cbn [length]; lia]. }
  lia.
Qed.
Print Assumptions C43_member_removed.

Theorem C43_quit : forall src k s g s' r, gfind k (gs_map s) = Some g -> quitGroup true src k s = (s', r) ->
  r = Ok tt /\ (exists g', gfind k (gs_map s') = Some g' /\ gfind k (gs_files s') = Some g' /\
     g_members g' = removeMember src (g_members g) /\ g_name g' = g_name g /\ g_id g' = g_id g)
  /\ forall k', k' <> k -> gfind k' (gs_map s') = gfind k' (gs_map s) /\ gfind k' (gs_files s') = gfind k' (gs_files s).
Proof.
  intros src k s g s' r F Q. unfold quitGroup in Q. rewrite F in Q. unfold saveGroup in Q. injection Q as <- <-. cbn [gs_map gs_files].
  split; [reflexivity|]. split.
  - exists (with_members g (removeMember src (g_members g))). rewrite !gfind_put, beq_refl. auto.
  - intros k' N. apply beq_neq in N. rewrite !gfind_put, N. auto.
Qed.
Print Assumptions C43_quit.

(* the member list can hold somebody twice: after quitting they are still in it *)
Definition vx_id : bytes := repeat 17 16.
Definition vx_key : bytes := Eval vm_compute in hex vx_id.
Definition vx_ok : nat -> res Z := fun _ => Ok 5.
Definition vx0 : gstate := mkGs [] [].
Definition vx_a : bytes := [43; 49]. Definition vx_b : bytes := [43; 50]. Definition vx_me : bytes := [43; 48].

Theorem C43_quit_effective_refuted : exists tel w out id name ms, let s := fst (fst (NewGroup tel w out id name ms vx0)) in
  exists src s' g', src <> tel /\ quitGroup true src (hex id) s = (s', Ok tt) /\ GetGroupById (hex id) s' = Ok g' /\ In src (g_members g').
Proof.
  exists vx_me, true, vx_ok, vx_id, [71], [vx_a; vx_b; vx_a]. cbv zeta. exists vx_a. eexists. eexists.
  split; [apply beq_neq; reflexivity|]. split; [vm_compute; reflexivity|]. split; [vm_compute; reflexivity|]. vm_compute. auto.
Qed.
Print Assumptions C43_quit_effective_refuted.

(* ---- C43: we leave ---- *)
(* the process never forgets the group: it is found, with all its members, as before *)
Theorem C43_left_group_is_still_there : forall tel out k s s' tried,
  LeaveGroup tel out k s = (s', Ok tt, tried) -> exists g, GetGroupById k s = Ok g /\ GetGroupById k s' = Ok g.
Proof.
  intros tel out k s s' tried H. unfold LeaveGroup in H. unfold GetGroupById. destruct (gfind k (gs_map s)) as [g|] eqn:F; [|discriminate].
  exists g. split; [reflexivity|]. destruct (sendall _ _ _ _) as [[t|e|] l]; try discriminate. injection H as <- _. cbn [gs_map]. now rewrite F.
Qed.
Print Assumptions C43_left_group_is_still_there.

Definition vx1 : gstate := Eval vm_compute in fst (fst (NewGroup vx_me true vx_ok vx_id [71] [vx_a; vx_b] vx0)).
(* ... and messages are sent to it *)
Theorem C43_leaving_is_effective_refuted : exists tel out k s s' tried, s = vx1 /\ LeaveGroup tel out k s = (s', Ok tt, tried)
  /\ (exists g, GetGroupById k s' = Ok g)
  /\ exists msg s2 tried2, sendGroupHelper [47] tel [] out (Err ENotFound) k msg s' = (s2, Ok 5, tried2) /\ length tried2 = 2%nat.
Proof.
  exists vx_me, vx_ok, vx_key, vx1. do 2 eexists. split; [reflexivity|]. split; [vm_compute; reflexivity|]. split; [eexists; vm_compute; reflexivity|].
  exists [104]. do 2 eexists. split; [vm_compute; reflexivity|]. reflexivity.
Qed.
Print Assumptions C43_leaving_is_effective_refuted.

(* every group is filed under the text of its id *)
Definition filed_by_id (t : gtable) : Prop := forall k g, gfind k t = Some g -> k = hex (g_id g).

(* After a restart the group is gone and the other groups are as they were. *)
Theorem C43_left_after_restart : forall dir tel out k s s' tried, uniq (gs_files s) -> filed_by_id (gs_map s) ->
  LeaveGroup tel out k s = (s', Ok tt, tried) ->
  GetGroupById k (grestart dir s') = Err ENotFound
  /\ forall k', k' <> k -> GetGroupById k' (grestart dir s') = GetGroupById k' (grestart dir s).
Proof.
  intros dir tel out k s s' tried U FI H. unfold LeaveGroup in H. unfold GetGroupById.
  destruct (gfind k (gs_map s)) as [g|] eqn:F; [|discriminate]. pose proof (FI _ _ F) as K.
  destruct (sendall _ _ _ _) as [[t|e|] l]; try discriminate. injection H as <- _. rewrite <- K.
  split.
  - rewrite restart_find by (cbn [gs_files]; now apply uniq_del). cbn [gs_files]. rewrite gfind_del, beq_refl. now destruct (contains _ _).
  - intros k' N. rewrite !restart_find by (cbn [gs_files]; try apply uniq_del; exact U). cbn [gs_files]. rewrite gfind_del.
    apply beq_neq in N. now rewrite N.
Qed.
Print Assumptions C43_left_after_restart.

(* ---- sending to the members ---- *)
(* everything up to the first failure is tried, nothing after it *)
Lemma sendall_spec out l : forall k ts,
  match sendall out k l ts with
  | (Ok _, tried) => tried = l /\ forall i, (i < length l)%nat -> exists t, out (k + i)%nat = Ok t
  | (r, tried) => exists a m b, l = a ++ m :: b /\ tried = a ++ [m] /\ r = out (k + length a)%nat
                  /\ forall i, (i < length a)%nat -> exists t, out (k + i)%nat = Ok t
  end.
Proof.
  induction l as [|m l IH]; intros k ts; cbn [sendall].
  - split; [reflexivity|]. intros i H. cbn [length] in H. lia.
  - destruct (out k) as [t|e|] eqn:O.
    + specialize (IH (S k) t). destruct (sendall out (S k) l t) as [[x|e|] tried].
      * destruct IH as [-> IH]. split; [reflexivity|]. intros [|i] H; [rewrite Nat.add_0_r; eauto|]. cbn [length] in H.
        rewrite Nat.add_succ_r. apply IH. lia.
      * destruct IH as (a & y & b & -> & -> & E & P). exists (m :: a), y, b. cbn [length app]. rewrite Nat.add_succ_r.
        repeat split; auto. intros [|i] H; [rewrite Nat.add_0_r; eauto|]. rewrite Nat.add_succ_r. apply P. lia.
      * destruct IH as (a & y & b & -> & -> & E & P). exists (m :: a), y, b. cbn [length app]. rewrite Nat.add_succ_r.
        repeat split; auto. intros [|i] H; [rewrite Nat.add_0_r; eauto|]. rewrite Nat.add_succ_r. apply P. lia.
    + exists [], m, l. rewrite Nat.add_0_r. cbn [length app]. repeat split; auto. intros i H. lia.
    + exists [], m, l. rewrite Nat.add_0_r. cbn [length app]. repeat split; auto. intros i H. lia.
Qed.

(* where a member is reached: under the UUID of a contact with that number, if it has a proper one *)
Definition reached_at (cs : list person) (m d : bytes) : Prop :=
  (exists c, In c cs /\ p_tel c = m /\ p_uuid c = d /\ d <> []) \/ d = m.

Lemma address_ok cs m : reached_at cs m (address cs m).
Proof.
  unfold address, GetContactForTel, reached_at. destruct (find _ cs) as [c|] eqn:F; [|auto].
  apply find_some in F. destruct F as [I E]. apply beq_eq in E.
  destruct (negb (beq (p_uuid c) []) && _ && _) eqn:B; [|auto]. left. exists c. repeat split; auto.
  apply andb_true_iff in B. destruct B as [B _]. apply andb_true_iff in B. destruct B as [B _]. intros Z. rewrite Z in B. discriminate.
Qed.

(* C87: if sending to a group succeeds, then a message with the text was handed over for every member but
   ourselves, in order, once for each time they are in the list, and for nobody else. *)
Theorem C87_every_other_member : forall dir tel cs out v2 k msg s s' t tried g,
  gfind k (gs_map s) = Some g ->
  sendGroupHelper dir tel cs out v2 k msg s = (s', Ok t, tried) ->
  s' = s /\ (forall i, (i < length tried)%nat -> exists t, out i = Ok t)
  /\ Forall2 (fun m o => reached_at cs m (gm_dest o) /\ gm_gid o = g_id g /\ gm_say o = SayText msg)
       (filter (fun m => negb (beq m tel)) (g_members g)) tried.
Proof.
  intros dir tel cs out v2 k msg s s' t tried g F H. unfold sendGroupHelper in H. rewrite F in H.
  destruct (g_members g) as [|m0 ms0] eqn:M; [discriminate|]. rewrite <- M in *. clear M.
  match type of H with context [sendall out 0 ?l 0] => set (l0 := l) in *; pose proof (sendall_spec out l0 0 0) as SP; destruct (sendall out 0 l0 0) as [r tr] end.
  injection H as <- -> <-. destruct SP as [-> P]. split; [reflexivity|]. split; [exact P|].
  unfold l0, others. clear. induction (filter _ (g_members g)) as [|m l IH]; cbn [map]; constructor; [|exact IH].
  cbn [gm_dest gm_gid gm_say]. split; [apply address_ok|auto].
Qed.
Print Assumptions C87_every_other_member.

Definition vx_cs : list person := [mkPerson [117; 98] vx_b [] [] [] false false [] [] [] []].
Example C87_example : exists s' tried, sendGroupHelper [47] vx_me vx_cs vx_ok (Err ENotFound) vx_key [104; 105] vx1 = (s', Ok 5, tried)
  /\ map gm_dest tried = [vx_a; [117; 98]].
Proof. do 2 eexists. split; vm_compute; reflexivity. Qed.

(* C88: the first failure ends it: nothing is sent to the members after that one. *)
Theorem C88_stops_at_first_failure : forall dir tel cs out v2 k msg s s' e tried g,
  gfind k (gs_map s) = Some g -> g_members g <> [] ->
  sendGroupHelper dir tel cs out v2 k msg s = (s', Err e, tried) ->
  exists a m b, others tel (g_members g) = a ++ m :: b /\ map gm_dest tried = map (address cs) (a ++ [m]) /\ out (length a) = Err e.
Proof.
  intros dir tel cs out v2 k msg s s' e tried g F NE H. unfold sendGroupHelper in H. rewrite F in H.
  destruct (g_members g) as [|m0 ms0] eqn:M; [congruence|]. rewrite <- M in *. clear M m0 ms0.
  match type of H with context [sendall out 0 ?l 0] => pose proof (sendall_spec out l 0 0) as SP; destruct (sendall out 0 l 0) as [r tr] end.
  injection H as _ -> ->. destruct SP as (a & m & b & E & -> & R & _). cbn [Nat.add] in R.
  apply map_eq_app in E. destruct E as (a1 & r1 & E1 & E2 & E3). apply map_eq_cons in E3. destruct E3 as (m1 & b1 & -> & E4 & _).
  exists a1, m1, b1. split; [exact E1|]. split; [|rewrite R, <- E2, map_length; reflexivity].
  rewrite !map_app, <- E2, map_map. cbn [map]. rewrite <- E4. reflexivity.
Qed.
Print Assumptions C88_stops_at_first_failure.

Theorem C88_one_member_spoils_it_refuted : exists dir tel cs out k msg s s' e tried g a b,
  GetGroupById k s = Ok g /\ g_members g = [a; b; tel] /\ a <> b /\ b <> tel /\ out 0%nat = Err e
  /\ (forall i, (0 < i)%nat -> exists t, out i = Ok t)
  /\ sendGroupHelper dir tel cs out (Err ENotFound) k msg s = (s', Err e, tried) /\ ~ In b (map gm_dest tried).
Proof.
  exists [47], vx_me, [], (fun i => match i with O => Err EOther | _ => Ok 5 end), vx_key, [104], vx1, vx1, EOther. do 2 eexists. exists vx_a, vx_b.
  split; [vm_compute; reflexivity|]. split; [reflexivity|]. split; [apply beq_neq; reflexivity|]. split; [apply beq_neq; reflexivity|].
  split; [reflexivity|]. split; [intros [|i] H; [lia|eauto]|]. split; [vm_compute; reflexivity|].
  intros [H|[]]. revert H. apply beq_neq. reflexivity.
Qed.
Print Assumptions C88_one_member_spoils_it_refuted.

(* leaving: if one cannot be told, those before them have been told and we are still in the group *)
Theorem C43_half_left : forall tel out k s s' e tried g, gfind k (gs_map s) = Some g -> LeaveGroup tel out k s = (s', Err e, tried) ->
  s' = s /\ exists a m b, others tel (g_members g) = a ++ m :: b /\ map gm_dest tried = a ++ [m] /\ out (length a) = Err e
  /\ forall o, In o tried -> gm_say o = SayQuit.
Proof.
  intros tel out k s s' e tried g F H. unfold LeaveGroup in H. rewrite F in H.
  match type of H with context [sendall out 0 ?l 0] => pose proof (sendall_spec out l 0 0) as SP; destruct (sendall out 0 l 0) as [r tr] end.
  destruct r as [t|e'|]; try discriminate. injection H as <- -> <-. split; [reflexivity|].
  destruct SP as (a & m & b & E & -> & R & _). cbn [Nat.add] in R.
  apply map_eq_app in E. destruct E as (a1 & r1 & E1 & E2 & E3). apply map_eq_cons in E3. destruct E3 as (m1 & b1 & -> & E4 & _).
  exists a1, m1, b1. split; [exact E1|]. split; [|split].
  - rewrite map_app, <- E2, map_map. cbn [map]. rewrite <- E4. cbn [gm_dest]. now rewrite map_id.
  - rewrite R, <- E2, map_length. reflexivity.
  - intros o I. apply in_app_or in I. destruct I as [I|[<-|[]]]; [|now rewrite <- E4].
    rewrite <- E2 in I. apply in_map_iff in I. destruct I as (x & <- & _). reflexivity.
Qed.
Print Assumptions C43_half_left.

(* ---- C89 ---- *)
(* what updating does *)
Theorem C89_update : forall tel w out k name ms s g s' r tried, gfind k (gs_map s) = Some g ->
  UpdateGroup tel w out k name ms s = (s', r, tried) ->
  (exists g', GetGroupById k s' = Ok g' /\ g_name g' = name /\ g_members g' = ms ++ [tel] /\ g_id g' = g_id g)
  /\ (forall k', k' <> k -> GetGroupById k' s' = GetGroupById k' s)
  /\ (forall g', r = Ok g' -> GetGroupById k s' = Ok g' /\ map gm_dest tried = others tel ms
        /\ forall o, In o tried -> gm_say o = SayUpdate name (ms ++ [tel]) /\ gm_gid o = g_id g).
Proof.
  intros tel w out k name ms s g s' r tried F H. unfold UpdateGroup in H. rewrite F in H.
  set (g1 := mkGroup (g_id g) (g_hexid g) name (ms ++ [tel]) (g_avatar g)) in *.
  assert (E : exists s1 x, saveGroup w k g1 (mkGs (gput k g1 (gs_map s)) (gs_files s)) = (s1, x) /\ gs_map s1 = gput k g1 (gs_map s)).
  { unfold saveGroup. destruct w; eauto. }
  destruct E as (s1 & x & E1 & E2). rewrite E1 in H. unfold sendUpdate in H.
  match type of H with context [sendall out 0 ?l 0] => pose proof (sendall_spec out l 0 0) as SP; destruct (sendall out 0 l 0) as [y tr] end.
  injection H as <- <- <-. unfold GetGroupById. rewrite E2.
  split; [|split].
  - exists g1. rewrite gfind_put, beq_refl. auto.
  - intros k' N. apply beq_neq in N. now rewrite gfind_put, N.
  - intros g' R. destruct y as [t|e|]; cbn [unit_of] in R; try discriminate. injection R as <-. rewrite gfind_put, beq_refl.
    split; [reflexivity|]. destruct SP as [-> _]. split.
    + rewrite map_map. cbn [gm_dest]. rewrite map_id. cbn [g_members g1]. unfold others. rewrite filter_app. cbn [filter]. rewrite beq_refl. apply app_nil_r.
    + intros o I. apply in_map_iff in I. destruct I as (m & <- & _). auto.
Qed.
Print Assumptions C89_update.

(* what a new group is: those named and its maker *)
Theorem C89_new : forall tel w out id name ms s s' r tried, NewGroup tel w out id name ms s = (s', r, tried) ->
  (exists g, GetGroupById (hex id) s' = Ok g /\ g_id g = id /\ g_name g = name /\ g_members g = ms ++ [tel])
  /\ (forall k', k' <> hex id -> GetGroupById k' s' = GetGroupById k' s)
  /\ (forall g, r = Ok g -> GetGroupById (hex id) s' = Ok g /\ map gm_dest tried = others tel ms
        /\ forall o, In o tried -> gm_say o = SayUpdate name (ms ++ [tel]) /\ gm_gid o = id).
Proof.
  intros tel w out id name ms s s' r tried H. unfold NewGroup in H.
  set (g1 := mkGroup id (hex id) name (ms ++ [tel]) []) in *.
  assert (E : exists s1 x, saveGroup w (hex id) g1 (mkGs (gput (hex id) g1 (gs_map s)) (gs_files s)) = (s1, x) /\ gs_map s1 = gput (hex id) g1 (gs_map s)).
  { unfold saveGroup. destruct w; eauto. }
  destruct E as (s1 & x & E1 & E2). rewrite E1 in H. unfold sendUpdate in H.
  assert (A : exists g, GetGroupById (hex id) s1 = Ok g /\ g_id g = id /\ g_name g = name /\ g_members g = ms ++ [tel]).
  { exists g1. unfold GetGroupById. rewrite E2, gfind_put, beq_refl. auto. }
  assert (B : forall k', k' <> hex id -> GetGroupById k' s1 = GetGroupById k' s).
  { intros k' N. unfold GetGroupById. apply beq_neq in N. now rewrite E2, gfind_put, N. }
  destruct x as [u|e|]; [|injection H as <- <- <-; split; [exact A|split; [exact B|discriminate]]|injection H as <- <- <-; split; [exact A|split; [exact B|discriminate]]].
  match type of H with context [sendall out 0 ?l 0] => pose proof (sendall_spec out l 0 0) as SP; destruct (sendall out 0 l 0) as [y tr] end.
  injection H as <- <- <-. split; [exact A|]. split; [exact B|].
  intros g' R. destruct y as [t|e|]; cbn [unit_of] in R; try discriminate. injection R as <-. unfold GetGroupById. rewrite E2, gfind_put, beq_refl.
  split; [reflexivity|]. destruct SP as [-> _]. split.
  + rewrite map_map. cbn [gm_dest]. rewrite map_id. cbn [g_members g1]. unfold others. rewrite filter_app. cbn [filter]. rewrite beq_refl. apply app_nil_r.
  + intros o I. apply in_map_iff in I. destruct I as (m & <- & _). auto.
Qed.
Print Assumptions C89_new.

(* giving a group that we are in a new name and its own members: the list grows, every time *)
Theorem C89_renaming_keeps_members_refuted : forall tel w out k name s g s' r tried,
  GetGroupById k s = Ok g -> UpdateGroup tel w out k name (g_members g) s = (s', r, tried) ->
  exists g', GetGroupById k s' = Ok g' /\ g_members g' <> g_members g /\ count tel (g_members g') = S (count tel (g_members g)).
Proof.
  intros tel w out k name s g s' r tried G H. assert (F : gfind k (gs_map s) = Some g).
  { unfold GetGroupById in G. destruct (gfind k (gs_map s)); [congruence|discriminate]. }
  destruct (C89_update _ _ _ _ _ _ _ _ _ _ _ F H) as [(g' & G' & _ & M & _) _]. exists g'. split; [exact G'|]. rewrite M. split.
  - intros E. apply (f_equal (@length bytes)) in E. rewrite app_length in E. cbn [length] in E. lia.
  - unfold count. rewrite filter_app, app_length. cbn [filter]. rewrite beq_refl. cbn [length]. lia.
Qed.
Print Assumptions C89_renaming_keeps_members_refuted.
Example C89_example : exists s' tried, UpdateGroup vx_me true vx_ok vx_key [72] [vx_a; vx_b; vx_me] vx1
    = (s', Ok (mkGroup vx_id vx_key [72] [vx_a; vx_b; vx_me; vx_me] []), tried) /\ map gm_dest tried = [vx_a; vx_b].
Proof. do 2 eexists. split; vm_compute; reflexivity. Qed.

(* ---- C90 ---- *)
(* what a user does with groups; out is how the sending goes; every write succeeds *)
Inductive gop :=
  | ONew (out : nat -> res Z) (id name : bytes) (ms : list bytes)
  | OUpdate (out : nat -> res Z) (k name : bytes) (ms : list bytes)
  | OQuit (src k : bytes)
  | OLeave (out : nat -> res Z) (k : bytes).
Definition gapply (tel : bytes) (s : gstate) (o : gop) : gstate :=
  match o with
  | ONew out id name ms => fst (fst (NewGroup tel true out id name ms s))
  | OUpdate out k name ms => fst (fst (UpdateGroup tel true out k name ms s))
  | OQuit src k => fst (quitGroup true src k s)
  | OLeave out k => fst (fst (LeaveGroup tel out k s))
  end.
Definition real_ids (os : list gop) : Prop := forall out id name ms, In (ONew out id name ms) os -> wfb id.
Definition not_left (k : bytes) (os : list gop) : Prop := forall out, ~ In (OLeave out k) os.

Lemma prefix_sep a : forall d h, ~ In 47 a -> prefix a (d ++ 47 :: h) = prefix a d.
Proof.
  induction a as [|x a IH]; intros d h N; [reflexivity|]. destruct d as [|y d]; cbn [app prefix].
  - destruct (Z.eqb_spec x 47) as [->|]; [|reflexivity]. exfalso. apply N. now left.
  - rewrite IH; [reflexivity|]. intros I. apply N. now right.
Qed.
Lemma contains_sep a d h : ~ In 47 a -> a <> [] -> contains a (d ++ 47 :: h) = contains a d || contains a h.
Proof.
  intros N E. induction d as [|y d IH].
  - cbn [app]. destruct a as [|x a]; [congruence|]. cbn [contains prefix]. destruct (Z.eqb_spec x 47) as [->|]; [|reflexivity].
    exfalso. apply N. now left.
  - cbn [app]. change (contains a (y :: d ++ 47 :: h)) with (prefix a (y :: d ++ 47 :: h) || contains a (d ++ 47 :: h)).
    rewrite IH. change (contains a (y :: d)) with (prefix a (y :: d) || contains a d).
    change (y :: d ++ 47 :: h) with ((y :: d) ++ 47 :: h). rewrite prefix_sep by exact N. now rewrite orb_assoc.
Qed.
Lemma prefix_in a : forall b x, prefix a b = true -> In x a -> In x b.
Proof.
  induction a as [|y a IH]; intros b x P I; [destruct I|]. destruct b as [|z b]; cbn [prefix] in P; [discriminate|].
  apply andb_true_iff in P. destruct P as [P1 P2]. apply Z.eqb_eq in P1. subst z. destruct I as [->|I]; [now left|right; eauto].
Qed.
Lemma contains_in a b x : contains a b = true -> In x a -> In x b.
Proof.
  induction b as [|y b IH]; intros P I; cbn [contains] in P; apply orb_true_iff in P; destruct P as [P|P]; try discriminate.
  - eapply prefix_in; eauto.
  - eapply prefix_in; eauto.
  - right. auto.
Qed.
Lemma hex_small id x : wfb id -> In x (hex id) -> x < 103.
Proof.
  induction id as [|b id IH]; intros W I; [destruct I|]. inversion W as [|? ? B W']; subst. unfold isbyte in B. cbn [hex In] in I.
  assert (D : forall v, 0 <= v < 16 -> hexdigit v < 103) by (intros v V; unfold hexdigit; destruct (Z.ltb_spec v 10); lia).
  destruct I as [<-|[<-|I]]; [apply D; split; [apply Z.div_pos; lia|apply Z.div_lt_upper_bound; lia]|apply D; apply Z.mod_pos_bound; lia|auto].
Qed.
Lemma path_ok dir id : wfb id -> contains avatar_text dir = false -> contains avatar_text (idToPath dir (hex id)) = false.
Proof.
  intros W D. unfold idToPath. rewrite contains_sep; [|intros I; cbn in I; intuition discriminate|discriminate]. rewrite D. cbn [orb].
  destruct (contains avatar_text (hex id)) eqn:E; [|reflexivity]. exfalso.
  assert (I : In 118 (hex id)) by (apply (contains_in _ _ 118 E); cbn; auto). apply (hex_small id) in I; [lia|exact W].
Qed.

Record gok (os : list gop) (s : gstate) : Prop := {
  k_uniq : uniq (gs_files s);
  k_ids : forall k g, gfind k (gs_map s) = Some g -> wfb (g_id g) /\ k = hex (g_id g);
  k_same : forall k, not_left k os -> gfind k (gs_files s) = gfind k (gs_map s) }.

Lemma not_left_snoc k os o : not_left k (os ++ [o]) -> not_left k os.
Proof. intros N out I. apply (N out). apply in_or_app. now left. Qed.

Lemma gok_put os o s k g s' : gok os s -> wfb (g_id g) -> k = hex (g_id g) ->
  gs_map s' = gput k g (gs_map s) -> gs_files s' = gput k g (gs_files s) -> gok (os ++ [o]) s'.
Proof.
  intros [U I M] W K E1 E2. constructor.
  - rewrite E2. now apply uniq_put.
  - intros k' g' F. rewrite E1, gfind_put in F. destruct (beq k' k) eqn:B; [|now apply I].
    injection F as <-. apply beq_eq in B. now subst k'.
  - intros k' N. rewrite E1, E2, !gfind_put. destruct (beq k' k); [reflexivity|]. apply M. now apply not_left_snoc in N.
Qed.
Lemma gok_same os o s : gok os s -> gok (os ++ [o]) s.
Proof. intros [U I M]. constructor; auto. intros k N. apply M. now apply not_left_snoc in N. Qed.

Lemma gok_apply tel os o s : gok os s -> (forall out id name ms, o = ONew out id name ms -> wfb id) -> gok (os ++ [o]) (gapply tel s o).
Proof.
  intros K W. destruct o as [out id name ms|out k name ms|src k|out k]; cbn [gapply].
  - unfold NewGroup, saveGroup. destruct (sendUpdate tel out _) as [x tr]. cbn [fst].
    eapply (gok_put os _ s (hex id) (mkGroup id (hex id) name (ms ++ [tel]) [])); [exact K|exact (W _ _ _ _ eq_refl)|reflexivity|reflexivity|reflexivity].
  - unfold UpdateGroup. destruct (gfind k (gs_map s)) as [g|] eqn:F; [|now apply gok_same]. unfold saveGroup. destruct (sendUpdate tel out _) as [x tr]. cbn [fst].
    destruct (k_ids _ _ K _ _ F) as [W1 W2].
    eapply (gok_put os _ s k (mkGroup (g_id g) (g_hexid g) name (ms ++ [tel]) (g_avatar g))); [exact K|exact W1|exact W2|reflexivity|reflexivity].
  - unfold quitGroup. destruct (gfind k (gs_map s)) as [g|] eqn:F; [|now apply gok_same]. unfold saveGroup. cbn [fst].
    destruct (k_ids _ _ K _ _ F) as [W1 W2].
    eapply (gok_put os _ s k (with_members g (removeMember src (g_members g)))); [exact K|exact W1|exact W2|reflexivity|reflexivity].
  - unfold LeaveGroup. destruct (gfind k (gs_map s)) as [g|] eqn:F; [|now apply gok_same]. destruct (sendall _ _ _ _) as [[t|e|] tr]; cbn [fst]; try now apply gok_same.
    destruct (k_ids _ _ K _ _ F) as [W1 W2]. destruct K as [U I M]. constructor; cbn [gs_map gs_files].
    + now apply uniq_del.
    + exact I.
    + intros k' N. rewrite gfind_del, <- W2. destruct (beq k' k) eqn:B; [|apply M; now apply not_left_snoc in N].
      apply beq_eq in B. subst k'. exfalso. apply (N out). apply in_or_app. right. now left.
Qed.

(* Whatever was done with groups, if all files could be written, after a restart every group we did not try to
   leave is there as it was. *)
Theorem C90_restart : forall tel dir os, contains avatar_text dir = false -> real_ids os ->
  let s := fold_left (gapply tel) os (mkGs [] []) in
  forall k, not_left k os -> GetGroupById k (grestart dir s) = GetGroupById k s.
Proof.
  intros tel dir os D R s k N. assert (K : gok os s).
  { unfold s. clear - R. induction os as [|o os IH] using rev_ind.
    - constructor; cbn [fold_left gs_map gs_files]; [constructor|discriminate|reflexivity].
    - rewrite fold_left_app. cbn [fold_left]. apply gok_apply.
      + apply IH. intros out id name ms I. apply (R out id name ms). apply in_or_app. now left.
      + intros out id name ms ->. apply (R out id name ms). apply in_or_app. right. now left. }
  clearbody s. unfold GetGroupById. rewrite restart_find by apply (k_uniq _ _ K). rewrite (k_same _ _ K) by exact N.
  destruct (gfind k (gs_map s)) as [g|] eqn:F; [|destruct (contains avatar_text (idToPath dir k)); reflexivity].
  destruct (k_ids _ _ K _ _ F) as [W ->]. rewrite path_ok by assumption. reflexivity.
Qed.
Print Assumptions C90_restart.

Example C90_example :
  let os := [ONew vx_ok vx_id [71] [vx_a; vx_b]; OUpdate (fun _ => Err EOther) vx_key [72] [vx_b]; ONew vx_ok (repeat 3 16) [73] []; OQuit vx_b vx_key] in
  let s := fold_left (gapply vx_me) os (mkGs [] []) in
  real_ids os /\ not_left vx_key os
  /\ GetGroupById vx_key (grestart [47; 103] s) = Ok (mkGroup vx_id vx_key [72] [vx_me] []).
Proof.
  cbv zeta. split; [|split; [|vm_compute; reflexivity]].
  - intros out id name ms [H|[H|[H|[H|[]]]]]; try discriminate; injection H; intros; subst id; vm_compute; repeat constructor; discriminate.
  - intros out [H|[H|[H|[H|[]]]]]; discriminate.
Qed.

(* An update whose file could not be written is reported as done; after a restart the group is as before. *)
Theorem C90_unwritten_update_refuted : exists tel out k name ms s s' g tried dir, s = vx1 /\
  UpdateGroup tel false out k name ms s = (s', Ok g, tried) /\ contains avatar_text dir = false
  /\ GetGroupById k (grestart dir s') = GetGroupById k s /\ GetGroupById k s <> GetGroupById k s'.
Proof.
  exists vx_me, vx_ok, vx_key, [72], [vx_a]. do 4 eexists. exists [47; 103]. split; [reflexivity|]. split; [vm_compute; reflexivity|].
  split; [reflexivity|]. split; [vm_compute; reflexivity|]. vm_compute. discriminate.
Qed.
Print Assumptions C90_unwritten_update_refuted.

(* With a storage directory whose path contains the word avatar, all groups are lost at a restart. *)
Theorem C90_avatar_directory_refuted : forall dir s k, contains avatar_text dir = true ->
  GetGroupById k (grestart dir s) = Err ENotFound.
Proof.
  intros dir s k D. unfold GetGroupById, grestart, setupGroups. cbn [gs_map gs_files].
  assert (P : forall x, contains avatar_text (idToPath dir x) = true).
  { intros x. unfold idToPath. rewrite contains_sep; [now rewrite D|intros I; cbn in I; intuition discriminate|discriminate]. }
  assert (X : forall fs t, fold_left (fun t kg => if contains avatar_text (idToPath dir (fst kg)) then t else gput (fst kg) (snd kg) t) fs t = t).
  { induction fs as [|x fs IH]; intros t; cbn [fold_left]; [reflexivity|]. now rewrite P, IH. }
  rewrite X. reflexivity.
Qed.
Print Assumptions C90_avatar_directory_refuted.
Example C90_avatar_example : contains avatar_text ([47] ++ avatar_text ++ [115; 47; 103]) = true.
Proof. reflexivity. Qed.
