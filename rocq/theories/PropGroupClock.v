(* C206 with which credentials a client asks about a group; C207 what becomes of its groups when it has none. *)
From Coq Require Import ZArith List Lia Bool.
From Verif Require Import Bytes Res Crypto Encodings Content Transport Credentials Groups2Store GroupClock
  PropEncodings PropTransport PropCredentials PropGroups2Store.
Import ListNotations.
Open Scope Z_scope.

(* ================= C206 ================= *)

Lemma credential_days serve now today c x c1 : GetCredentialForRedemption serve today now c = (Ok x, c1) ->
  exists l, c1 = Some l /\ In x l /\ fst x = now.
Proof.
  unfold GetCredentialForRedemption. intros H.
  destruct (match c with None => _ | Some _ => _ end) as [r c2] eqn:E in H.
  destruct r as [u|e|]; try discriminate.
  destruct (find _ _) as [y|] eqn:F in H; [|discriminate]. injection H as -> <-. apply find_some in F. destruct F as [I D].
  destruct c2 as [l|]; [|destruct I]. exists l. split; [reflexivity|]. split; [exact I|]. now apply Z.eqb_eq.
Qed.

Lemma hex_no_colon b : wfb b -> no_colon (hex b).
Proof.
  intros W. unfold no_colon. induction W as [|x l X W IH]; [constructor|]. cbn [hex]. unfold isbyte in X.
  assert (D : forall v, 0 <= v < 16 -> hexdigit v <> 58).
  { intros v V. unfold hexdigit. destruct (v <? 10) eqn:E; [apply Z.ltb_lt in E; lia|lia]. }
  constructor; [|constructor]; [apply D|apply D|exact IH]; split; try (apply Z.div_pos; lia); try (apply Z.div_lt_upper_bound; lia);
    apply Z.mod_pos_bound; lia.
Qed.
Lemma hex_wf b : wfb b -> wfb (hex b).
Proof.
  intros W. induction W as [|x l X W IH]; [constructor|]. cbn [hex]. unfold isbyte in X.
  assert (D : forall v, 0 <= v < 16 -> isbyte (hexdigit v)).
  { intros v V. unfold hexdigit, isbyte. destruct (v <? 10); lia. }
  constructor; [|constructor]; [apply D|apply D|exact IH]; split; try (apply Z.div_pos; lia); try (apply Z.div_lt_upper_bound; lia);
    apply Z.mod_pos_bound; lia.
Qed.

(* the library gives bytes *)
Definition lib_bytes (L : authlib) : Prop :=
  (forall key, wfb (al_public L key)) /\ (forall key ac p, al_present L key ac = Some p -> wfb p).

(* Whatever was cached and whatever the servers do: either nothing is asked, or the question carries as user the public
   parameters of the group in hexadecimal and as password a presentation, for that group, of a credential that the
   server gave for the very day of the question and that was received as our own UUID. *)
Theorem C206_asked_as : forall L serve store now today me key c a c1, lib_bytes L ->
  ask L serve store now today me key c = (a, c1) ->
  (exists e, a = Refused e) \/
  exists l cr ac p h, c1 = Some l /\ In (now, cr) l /\ al_receive L (al_uuid L me) (now mod 2 ^ 32) cr = Some ac /\
    al_present L key ac = Some p /\ a = store h /\ read_auth h = Some (hex (al_public L key), hex p).
Proof.
  intros L serve store now today me key c a c1 [B1 B2] H. unfold ask, NewGroupsV2Authorization in H.
  destruct (GetCredentialForRedemption serve today now c) as [[[d cr]|e|] c2] eqn:G.
  - destruct (credential_days _ _ _ _ _ _ G) as (l & -> & I & D). cbn [fst] in D. subst d.
    destruct (al_receive L (al_uuid L me) (now mod 2 ^ 32) cr) as [ac|] eqn:R; [|injection H as <- <-; left; eexists; reflexivity].
    destruct (al_present L key ac) as [p|] eqn:P; [|injection H as <- <-; left; eexists; reflexivity].
    injection H as <- <-. right. exists l, cr, ac, p. eexists. split; [reflexivity|]. split; [exact I|]. split; [exact R|].
    split; [exact P|]. split; [reflexivity|]. unfold basicAuth.
    assert (W1 : wfb (hex (al_public L key))) by apply hex_wf, B1.
    assert (W2 : wfb (hex p)) by (eapply hex_wf, B2, P).
    rewrite read_basic by (apply wfb_userpass; assumption). apply cut_colon, hex_no_colon, B1.
  - injection H as <- <-. left. eexists; reflexivity.
  - injection H as <- <-. left. eexists; reflexivity.
Qed.
Print Assumptions C206_asked_as.

(* From the day the credentials were fetched to seven days later the question is asked, if the libraries work. *)
Theorem C206_asked_for_a_week : forall L serve store day0 now today me key l,
  honest serve -> serve day0 (day0 + 7) = RCreds l ->
  (forall u d cr, In (d, cr) l -> exists ac p, al_receive L u (d mod 2 ^ 32) cr = Some ac /\ al_present L key ac = Some p) ->
  day0 <= now <= day0 + 7 ->
  exists h, ask L serve store now today me key (Some l) = (store h, Some l).
Proof.
  intros L serve store day0 now today me key l Ho Se W D. unfold ask, NewGroupsV2Authorization, GetCredentialForRedemption.
  destruct (Ho day0 (day0 + 7)) as (l' & Se' & I). rewrite Se in Se'. injection Se' as <-.
  destruct (find_for l now) as [cr F]; [now apply I|]. rewrite F. cbn [fst snd].
  apply find_some in F. destruct F as [F _].
  destruct (W (al_uuid L me) now cr F) as (ac & p & R & P). rewrite R, P. eexists. reflexivity.
Qed.
Print Assumptions C206_asked_for_a_week.

(* ================= C207 ================= *)

(* what is known of the members of the group called k *)
Definition knows (s : st2) (k : bytes) (d : dgroup) : Prop :=
  exists g, (find2 k (s2_map s) = Some g \/ find2 k (s2_files s) = Some g) /\ g2_dec g = Some d.

(* an answer to a question asked on a day with the credentials l in the cache *)
Definition asked_on (L : authlib) (me : bytes) (l : list credential) (now : Z) (a : answer2) : Prop :=
  exists serve store today key, a = fst (ask L serve store now today me key (Some l)).
(* a call of the interface made on a day; no new start of the program *)
Definition call_on (L : authlib) (me : bytes) (l : list credential) (now : Z) (o : op2) : Prop :=
  match o with
  | OpMessage _ _ a1 a2 _ _ _ => asked_on L me l now a1 /\ asked_on L me l now a2
  | OpMembers a _ _ => asked_on L me l now a
  | OpJoin a1 a2 _ _ _ _ _ => asked_on L me l now a1 /\ asked_on L me l now a2
  | OpSend a _ _ _ => asked_on L me l now a
  | OpRestart => False
  end.
Definition from_server (serve : Z -> Z -> reply) (day0 : Z) (l : list credential) : Prop :=
  honest serve /\ serve day0 (day0 + 7) = RCreds l.
Definition after (z : zk) (me : bytes) (s : st2) (calls : list (Z * op2)) : st2 := fold_left (fun s x => step2 z me (snd x) s) calls s.

Lemma late_refused L me l day0 serve now a : from_server serve day0 l -> day0 + 7 < now -> asked_on L me l now a -> exists e, a = Refused e.
Proof.
  intros [Ho Se] D (sv & store & today & key & ->). unfold ask, NewGroupsV2Authorization, GetCredentialForRedemption.
  destruct (Ho day0 (day0 + 7)) as (l' & Se' & I). rewrite Se in Se'. injection Se' as <-.
  rewrite find_not; [eexists; reflexivity|]. intros X. apply I in X. lia.
Qed.

Section Frozen.
Variables (z : zk) (me : bytes) (s0 : st2).
Definition kept (s : st2) : Prop :=
  (forall k g, find2 k (s2_files s0) = Some g -> find2 k (s2_files s) = Some g) /\
  (forall k d, knows s k d -> knows s0 k d).
Lemma kept_put s k g : kept s -> (forall d, g2_dec g = Some d -> knows s0 k d) -> kept (mkSt2 (put2 k g (s2_map s)) (s2_files s)).
Proof.
  intros [A B] H. split; [exact A|]. intros k' d (g' & F & D). cbn [s2_map s2_files] in F. destruct F as [F|F].
  - rewrite find_put2 in F. destruct (beq k' k) eqn:E; [|apply B; exists g'; auto].
    apply beq_eq in E. subst k'. injection F as <-. now apply H.
  - apply B. exists g'. auto.
Qed.
Lemma kept_load k s : kept s -> kept (fst (loadGroupV2 k s)) /\
  (forall g, snd (loadGroupV2 k s) = Some g -> find2 k (s2_map (fst (loadGroupV2 k s))) = Some g) /\
  (snd (loadGroupV2 k s) = None -> find2 k (s2_files (fst (loadGroupV2 k s))) = None).
Proof.
  intros K. unfold loadGroupV2. destruct (find2 k (s2_files s)) as [g|] eqn:F; cbn [fst snd].
  - split; [|split].
    + apply kept_put; [exact K|]. intros d D. apply K. exists g. auto.
    + intros g' [= <-]. cbn [s2_map]. rewrite find_put2, beq_refl. reflexivity.
    + discriminate.
  - split; [exact K|]. split; [discriminate|]. intros _. exact F.
Qed.
Lemma kept_find k s : kept s -> kept (fst (FindGroup k s)) /\
  (forall g, snd (FindGroup k s) = Some g -> find2 k (s2_map (fst (FindGroup k s))) = Some g).
Proof.
  intros K. unfold FindGroup. destruct (s2_map s) as [|x m] eqn:M.
  - destruct (kept_load k s K) as (A & B & _). auto.
  - cbn [fst snd]. split; [exact K|]. intros g F. rewrite M. exact F.
Qed.
Lemma kept_knows s k g d : kept s -> find2 k (s2_map s) = Some g -> g2_dec g = Some d -> knows s0 k d.
Proof. intros K F D. apply K. exists g. auto. Qed.
Lemma kept_new s k key rev w : kept s -> find2 k (s2_files s) = None ->
  kept (saveGroupV2 w k (mkSt2 (put2 k (g2_new key rev) (s2_map s)) (s2_files s))).
Proof.
  intros K F. assert (K1 : kept (mkSt2 (put2 k (g2_new key rev) (s2_map s)) (s2_files s))) by (apply kept_put; [exact K|discriminate]).
  destruct K1 as [A B]. split.
  - intros k' g G. rewrite save_files. destruct (beq k' k && w) eqn:E; [|now apply A].
    apply andb_true_iff in E. destruct E as [E _]. apply beq_eq in E. subst k'. apply K in G. congruence.
  - intros k' d (g & G & D). rewrite save_map, save_files in G. cbn [s2_map s2_files] in G.
    destruct G as [G|G]; [apply B; exists g; cbn [s2_map]; auto|].
    destruct (beq k' k && w) eqn:E; [|apply B; exists g; cbn [s2_files]; auto].
    rewrite find_put2, beq_refl in G. injection G as <-. discriminate.
Qed.

Lemma update_refused e w key s : fst (UpdateGroupFromServer z me (Refused e) w key s) = s.
Proof. apply C102_refused_update_keeps_all. Qed.
Lemma update_refused' e w key s : exists e', UpdateGroupFromServer z me (Refused e) w key s = (s, Err e').
Proof. unfold UpdateGroupFromServer, query. destruct (negb _); eexists; reflexivity. Qed.

Lemma message_kept src c e1 e2 w0 w1 w2 s : kept s ->
  let r := HandleGroupsV2 z me src c (Refused e1) (Refused e2) w0 w1 w2 s in
  kept (fst r) /\ forall g d, snd r = Ok g -> g2_dec g = Some d -> knows s0 (hex (orempty (gc_master c))) d.
Proof.
  intros K. unfold HandleGroupsV2. set (key := orempty (gc_master c)). set (k := hex key).
  set (rev := match gc_rev c with Some r => r | None => 0 end).
  destruct (kept_load k s K) as (K1 & L1 & N1). destruct (loadGroupV2 k s) as [s1 og]. cbn [fst snd] in K1, L1, N1.
  rewrite !update_refused.
  set (s2 := match og with Some _ => _ | None => _ end).
  assert (K2 : kept s2).
  { unfold s2. destruct og as [g|]; [rewrite update_refused; destruct (is_nil _); exact K1|]. apply kept_new; auto. }
  destruct (find2 k (s2_map s2)) as [g|] eqn:F; [|split; [exact K2|discriminate]].
  destruct (negb (is_nil (orempty (gc_change c)))).
  - destruct (pb_change z (orempty (gc_change c))) as [acts sig].
    destruct (negb (is_nil acts) && negb (zk_verify z acts sig)); [split; [exact K2|discriminate]|].
    rewrite update_refused, F. cbn [fst snd]. split.
    + apply kept_put; [exact K2|]. cbn [set_act g2_dec]. intros d D. exact (kept_knows s2 k g d K2 F D).
    + intros g' d [= <-]. cbn [set_act g2_dec]. intros D. exact (kept_knows s2 k g d K2 F D).
  - destruct (g2_dec g) as [d0|] eqn:D0; [|split; [exact K2|discriminate]].
    destruct (dg_rev d0 =? rev); [|rewrite update_refused, F]; (split; [exact K2|]);
      intros g' d [= <-] D; exact (kept_knows s2 k g d K2 F D).
Qed.
Lemma members_kept e w k s : kept s ->
  let r := GetMembers z me (Refused e) w k s in
  kept (fst r) /\ forall ms, snd r = Ok ms -> exists d, knows s0 k d /\ ms = dg_members d.
Proof.
  intros K. unfold GetMembers. destruct (kept_find k s K) as (K1 & L1). destruct (FindGroup k s) as [s1 [g|]]; [|split; [exact K1|discriminate]].
  cbn [fst snd] in K1, L1. destruct (update_refused' e w (g2_key g) s1) as [e' U]. rewrite U. cbn [fst snd]. split; [exact K1|].
  rewrite (L1 g eq_refl). destruct (g2_dec g) as [d|] eqn:D; [|discriminate]. intros ms [= <-]. exists d. split; [|reflexivity].
  exact (kept_knows s1 k g d K1 (L1 g eq_refl) D).
Qed.
Lemma join_kept e a2 w1 w2 pres patch k s : kept s ->
  let r := JoinGroup z me (Refused e) a2 w1 w2 pres patch k s in
  kept (fst (fst r)) /\ (forall g, snd (fst r) <> Ok g) /\ snd r = [].
Proof.
  intros K. unfold JoinGroup. destruct (kept_find k s K) as (K1 & L1). destruct (FindGroup k s) as [s1 [g|]].
  - cbn [fst snd] in K1. destruct (update_refused' e w1 (g2_key g) s1) as [e' U]. rewrite U. cbn [fst snd]. split; [exact K1|]. split; [discriminate|reflexivity].
  - split; [exact K1|]. split; [discriminate|reflexivity].
Qed.
(* the recipients tried, in order, are the first members of d, all of them if the call says so *)
Definition addressed (d : dgroup) (r : res Z) (tried : list bytes) : Prop :=
  exists ms rest, dg_members d = ms ++ rest /\ Forall2 (fun m x => idToHexUUID (dm_uuid m) = Ok x) ms tried /\
    (forall t, r = Ok t -> rest = []).
Lemma send2_addressed out : forall ms n ts, exists l rest, ms = l ++ rest /\
  Forall2 (fun m x => idToHexUUID (dm_uuid m) = Ok x) l (snd (send2 out n ms ts)) /\ (forall t, fst (send2 out n ms ts) = Ok t -> rest = []).
Proof.
  induction ms as [|m r IH]; intros n ts; cbn [send2].
  - exists [], []. split; [reflexivity|]. split; [constructor|]. reflexivity.
  - destruct (idToHexUUID (dm_uuid m)) as [dest|e|] eqn:E.
    + destruct (out n) as [t|e|].
      * destruct (IH (S n) t) as (l & rest & -> & F & A). destruct (send2 out (S n) (l ++ rest) t) as [x tried]. cbn [fst snd] in *.
        exists (m :: l), rest. split; [reflexivity|]. split; [constructor; assumption|exact A].
      * exists [m], r. split; [reflexivity|]. split; [constructor; [exact E|constructor]|]. discriminate.
      * exists [m], r. split; [reflexivity|]. split; [constructor; [exact E|constructor]|]. discriminate.
    + exists [], (m :: r). split; [reflexivity|]. split; [constructor|discriminate].
    + exists [], (m :: r). split; [reflexivity|]. split; [constructor|discriminate].
Qed.
Lemma send_kept e w out k s : kept s ->
  let r := sendGroupV2Helper z me (Refused e) w out k s in
  kept (fst (fst r)) /\ ((snd r = [] /\ forall t, snd (fst r) <> Ok t) \/ exists d, knows s0 k d /\ addressed d (snd (fst r)) (snd r)).
Proof.
  intros K. unfold sendGroupV2Helper. destruct (kept_find k s K) as (K1 & L1). destruct (FindGroup k s) as [s1 [g|]].
  2: { split; [exact K1|]. left. split; [reflexivity|discriminate]. }
  cbn [fst snd] in K1, L1.
  assert (K2 : kept (mkSt2 (put2 k (CheckJoinStatus z me g) (s2_map s1)) (s2_files s1))).
  { apply kept_put; [exact K1|]. rewrite check_dec. intros d D. exact (kept_knows s1 k g d K1 (L1 g eq_refl) D). }
  destruct (negb _); [split; [exact K2|]; left; split; [reflexivity|discriminate]|].
  rewrite check_dec. destruct (g2_dec g) as [d|] eqn:D.
  - cbn [s2_map]. rewrite find_put2, beq_refl, check_dec, D.
    destruct (dg_members d) as [|m ms] eqn:M; [split; [exact K2|]; left; split; [reflexivity|discriminate]|].
    pose proof (send2_addressed out (m :: ms) 0%nat 0) as A. destruct (send2 out 0 (m :: ms) 0) as [x tried]. cbn [fst snd] in *.
    split; [exact K2|]. right. exists d. split; [exact (kept_knows s1 k g d K1 (L1 g eq_refl) D)|].
    destruct A as (l & rest & E & F & A). exists l, rest. rewrite M. auto.
  - match goal with |- context [UpdateGroupFromServer _ _ _ _ ?key ?st] => destruct (update_refused' e w key st) as [e' U] end.
    rewrite U. cbn [fst snd]. split; [exact K2|]. left. split; [reflexivity|discriminate].
Qed.
End Frozen.

Lemma kept_refl s : kept s s.
Proof. split; auto. Qed.
Lemma call_kept z me L l serve day0 s0 now o s : from_server serve day0 l -> day0 + 7 < now -> call_on L me l now o -> kept s0 s ->
  kept s0 (step2 z me o s).
Proof.
  intros Fs D C K. destruct o as [src c a1 a2 w0 w1 w2|a w k|a1 a2 w1 w2 pres patch k|a w out k|]; cbn [step2 call_on] in *.
  - destruct C as [C1 C2]. destruct (late_refused _ _ _ _ _ _ _ Fs D C1) as [e1 ->]. destruct (late_refused _ _ _ _ _ _ _ Fs D C2) as [e2 ->].
    now apply message_kept.
  - destruct (late_refused _ _ _ _ _ _ _ Fs D C) as [e ->]. now apply members_kept.
  - destruct C as [C1 _]. destruct (late_refused _ _ _ _ _ _ _ Fs D C1) as [e ->]. now apply join_kept.
  - destruct (late_refused _ _ _ _ _ _ _ Fs D C) as [e ->]. now apply send_kept.
  - destruct C.
Qed.
Lemma after_kept z me L l serve day0 s0 : from_server serve day0 l -> forall calls,
  (forall now o, In (now, o) calls -> day0 + 7 < now /\ call_on L me l now o) -> forall s, kept s0 s -> kept s0 (after z me s calls).
Proof.
  intros Fs. induction calls as [|[now o] r IH]; intros H s K; [exact K|]. cbn [after fold_left snd]. apply IH.
  - intros now' o' I. apply H. now right.
  - destruct (H now o) as [D C]; [now left|]. eapply call_kept; eauto.
Qed.

(* C207. A client fetched its credentials on day0 and keeps running. Whatever it does from the eighth day after on, until it is
   started again, whatever the server of groups would answer and whatever messages say: it learns nothing about any group. What
   it knows of members is what it knew, and the file of every group stays as it was ... *)
Theorem C207_nothing_is_learnt : forall z me L serve day0 l s calls, from_server serve day0 l ->
  (forall now o, In (now, o) calls -> day0 + 7 < now /\ call_on L me l now o) ->
  (forall k d, knows (after z me s calls) k d -> knows s k d) /\
  (forall k g, find2 k (s2_files s) = Some g -> find2 k (s2_files (after z me s calls)) = Some g).
Proof.
  intros z me L serve day0 l s calls Fs H. destruct (after_kept z me L l serve day0 s Fs calls H s (kept_refl s)) as [A B]. auto.
Qed.
Print Assumptions C207_nothing_is_learnt.

(* ... so messages to the group go to the members as they were then, in particular to those removed since ... *)
Theorem C207_old_members_get_messages : forall z me L serve day0 l s calls now a w out k, from_server serve day0 l ->
  (forall now o, In (now, o) calls -> day0 + 7 < now /\ call_on L me l now o) -> day0 + 7 < now -> asked_on L me l now a ->
  let r := sendGroupV2Helper z me a w out k (after z me s calls) in
  (snd r = [] /\ forall t, snd (fst r) <> Ok t) \/ exists d, knows s k d /\ addressed d (snd (fst r)) (snd r).
Proof.
  intros z me L serve day0 l s calls now a w out k Fs H D A. destruct (late_refused _ _ _ _ _ _ _ Fs D A) as [e ->].
  apply (send_kept z me s). exact (after_kept z me L l serve day0 s Fs calls H s (kept_refl s)).
Qed.
Print Assumptions C207_old_members_get_messages.

(* ... the list of members is the old one, given without an error ... *)
Theorem C207_old_members_listed : forall z me L serve day0 l s calls now a w k ms, from_server serve day0 l ->
  (forall now o, In (now, o) calls -> day0 + 7 < now /\ call_on L me l now o) -> day0 + 7 < now -> asked_on L me l now a ->
  snd (GetMembers z me a w k (after z me s calls)) = Ok ms -> exists d, knows s k d /\ ms = dg_members d.
Proof.
  intros z me L serve day0 l s calls now a w k ms Fs H D A. destruct (late_refused _ _ _ _ _ _ _ Fs D A) as [e ->].
  apply (members_kept z me s). exact (after_kept z me L l serve day0 s Fs calls H s (kept_refl s)).
Qed.
Print Assumptions C207_old_members_listed.

(* ... nobody can join ... *)
Theorem C207_no_joining : forall z me L serve day0 l s now a1 a2 w1 w2 pres patch k, from_server serve day0 l ->
  day0 + 7 < now -> asked_on L me l now a1 ->
  (forall g, snd (fst (JoinGroup z me a1 a2 w1 w2 pres patch k s)) <> Ok g) /\ snd (JoinGroup z me a1 a2 w1 w2 pres patch k s) = [].
Proof.
  intros z me L serve day0 l s now a1 a2 w1 w2 pres patch k Fs D A. destruct (late_refused _ _ _ _ _ _ _ Fs D A) as [e ->].
  destruct (join_kept z me s e a2 w1 w2 pres patch k s (kept_refl s)) as (_ & B & C). auto.
Qed.
Print Assumptions C207_no_joining.

(* ... and the first message in a group the client has no file of crashes it, unless it brings a change. *)
Theorem C207_new_groups_crash : forall z me L serve day0 l s now src c a1 a2 w0 w1 w2, from_server serve day0 l ->
  day0 + 7 < now -> asked_on L me l now a1 ->
  find2 (hex (orempty (gc_master c))) (s2_files s) = None -> orempty (gc_change c) = [] ->
  snd (HandleGroupsV2 z me src c a1 a2 w0 w1 w2 s) = Panic.
Proof.
  intros z me L serve day0 l s now src c a1 a2 w0 w1 w2 Fs D A F C. destruct (late_refused _ _ _ _ _ _ _ Fs D A) as [e ->].
  apply C96_when_it_crashes; [intros g X; congruence|]. split; [exact C|]. unfold nothing_known. rewrite F. intros (e' & b & X & _). discriminate.
Qed.
Print Assumptions C207_new_groups_crash.

(* ---- a group that Carol leaves ---- *)
Definition exlib : authlib := mkAuthlib (fun t => firstn 4 t) (map (fun x => x mod 256))
  (fun u d cr => if 3 <=? zlen cr then Some (u ++ (d mod 256) :: cr) else None) (fun key ac => Some (map (fun x => x mod 256) (key ++ ac))).
Lemma exlib_bytes : lib_bytes exlib.
Proof.
  assert (W : forall l, wfb (map (fun x => x mod 256) l)).
  { intros l. apply Forall_forall. intros y I. apply in_map_iff in I. destruct I as (x & <- & _). apply Z.mod_pos_bound. lia. }
  split; [intros key; apply W|]. intros key ac p [= <-]. apply W.
Qed.
Definition group1 : egroup := mkEg xtitle [] (Some (2, 2, 4)) 1 [plain alice; plain bob; plain carol] [].
Definition group2 : egroup := mkEg xtitle [] (Some (2, 2, 4)) 2 [plain alice; plain bob] [].
(* the first message of the group comes on day 20000 *)
Definition ask0 : answer2 * cache := Eval vm_compute in ask exlib ex_serve (fun _ => Answered group1 true) 20000 20000 me_text xkey None.
Definition state0 : st2 := Eval vm_compute in fst (HandleGroupsV2 toyzk me_text [43; 49] (xctx 1) (fst ask0) (fst ask0) true true true (mkSt2 [] [])).
Definition creds0 : list credential := Eval vm_compute in match snd ask0 with Some l => l | None => [] end.
(* Carol is removed; on some later day a message of the second revision comes and then one is sent *)
Definition ask_later (now : Z) : answer2 := fst (ask exlib ex_serve (fun _ => Answered group2 true) now now me_text xkey (Some creds0)).
Definition message_later (now : Z) : op2 := OpMessage [43; 49] (xctx 2) (ask_later now) (ask_later now) true true true.
Definition sent_later (now : Z) : res Z * list bytes :=
  let r := sendGroupV2Helper toyzk me_text (ask_later now) true (fun _ => Ok 5) xk (after toyzk me_text state0 [(now, message_later now)]) in
  (snd (fst r), snd r).
Definition name_of (u : bytes) : bytes := HexToUUID (hex u).

Example C206_example : lib_bytes exlib /\
  (exists h, ask exlib ex_serve (fun h => Answered (mkEg h [] None 0 [] []) true) 20003 20003 me_text xkey None =
     (Answered (mkEg h [] None 0 [] []) true, Some (map (fun i => (20003 + Z.of_nat i, [1; 2; 3])) (seq 0 8))) /\
     read_auth h = Some (hex xkey, hex (xkey ++ firstn 4 me_text ++ [35; 1; 2; 3]))) /\
  fst (ask exlib ex_serve (fun h => Answered (mkEg h [] None 0 [] []) true) 20011 20011 me_text xkey
    (Some (map (fun i => (20003 + Z.of_nat i, [1; 2; 3])) (seq 0 8)))) = Refused ENotFound.
Proof. split; [exact exlib_bytes|]. split; [eexists; split; vm_compute; reflexivity|vm_compute; reflexivity]. Qed.

(* the claim would be that a message to a group goes to the members the server has, once the client was told of the change *)
Theorem C207_follows_the_server_refuted : exists z me L serve day0 l s now e o a k d,
  zk_ok z /\ from_server serve day0 l /\ day0 < now /\
  (* the server has the group e, which does not have Carol in it, and would say so *)
  decryptGroup z xkey e = Some d /\ (forall m, In m (dg_members d) -> name_of (dm_uuid m) <> name_of carol) /\
  a = fst (ask L serve (fun _ => Answered e true) now now me xkey (Some l)) /\
  o = OpMessage [] (mkGctx2 (Some xkey) (Some (dg_rev d)) None) a a true true true /\ k = hex xkey /\
  (* the message to the group is sent, to Carol too *)
  exists ts tried s', sendGroupV2Helper z me a true (fun _ => Ok 5) k (after z me s [(now, o)]) = (s', Ok ts, tried) /\
    In (name_of carol) tried.
Proof.
  exists toyzk, me_text, exlib, ex_serve, 20000, creds0, state0, 20008, group2. eexists. eexists. eexists. eexists.
  split; [exact toyzk_ok|]. split; [split; [exact ex_honest|vm_compute; reflexivity]|]. split; [lia|].
  split; [vm_compute; reflexivity|]. split.
  - cbn [dg_members In]. intros m [<-|[<-|[]]]; apply beq_neq; vm_compute; reflexivity.
  - split; [reflexivity|]. split; [reflexivity|]. split; [reflexivity|]. eexists. eexists. eexists.
    split; [vm_compute; reflexivity|]. cbn [In]. right. right. left. vm_compute. reflexivity.
Qed.
Print Assumptions C207_follows_the_server_refuted.
(* a day earlier Carol gets nothing *)
Example C207_example :
  from_server ex_serve 20000 creds0 /\ asked_on exlib me_text creds0 20008 (ask_later 20008) /\
  sent_later 20007 = (Ok 5, [name_of alice; name_of bob]) /\ sent_later 20008 = (Ok 5, [name_of alice; name_of bob; name_of carol]) /\
  snd (HandleGroupsV2 toyzk me_text [] (mkGctx2 (Some [1; 2; 3; 4]) (Some 1) None) (ask_later 20008) (ask_later 20008) true true true state0) = Panic.
Proof.
  split; [split; [exact ex_honest|vm_compute; reflexivity]|]. split; [exists ex_serve, (fun _ => Answered group2 true), 20008, xkey; reflexivity|].
  split; [vm_compute; reflexivity|]. split; vm_compute; reflexivity.
Qed.

(* For the first week the client does follow: after a message of a group whose revision is not the one it has, or with a change
   that the server signed, it has the group of the server, and the next message goes to the members of that group. *)
Lemma update_answered z me e b w key s g : find2 (hex key) (s2_map s) = Some g -> g2_key g = key ->
  zk_params z key = true ->
  find2 (hex key) (s2_map (fst (UpdateGroupFromServer z me (Answered e b) w key s))) = Some (fst (decryptGroupFromServer z me e g)).
Proof.
  intros F K Z. rewrite (update_known z me (Answered e b) w key s g F), beq_refl. unfold query. rewrite K, Z. reflexivity.
Qed.
Lemma handled_dec z me src c e b a1 w0 w1 w2 s key d : gc_master c = Some key ->
  (forall g, find2 (hex key) (s2_files s) = Some g -> g2_key g = key /\ g2_dec g <> None) ->
  a1 = Answered e b -> zk_params z key = true -> decryptGroup z key e = Some d ->
  (forall acts sig, gc_change c <> None -> pb_change z (orempty (gc_change c)) = (acts, sig) -> acts = [] \/ zk_verify z acts sig = true) ->
  exists g d', HandleGroupsV2 z me src c a1 a1 w0 w1 w2 s = (fst (HandleGroupsV2 z me src c a1 a1 w0 w1 w2 s), Ok g) /\
    find2 (hex key) (s2_map (fst (HandleGroupsV2 z me src c a1 a1 w0 w1 w2 s))) = Some g /\ g2_dec g = Some d' /\
    (d' = d \/ (orempty (gc_change c) = [] /\ dg_rev d' = match gc_rev c with Some r => r | None => 0 end /\
                exists g0, find2 (hex key) (s2_files s) = Some g0 /\ g2_dec g0 = Some d')).
Proof.
  intros M Hk -> Z De Sg. unfold HandleGroupsV2. rewrite M. cbn [orempty].
  set (k := hex key). set (rev := match gc_rev c with Some r => r | None => 0 end).
  unfold loadGroupV2. fold k in Hk.
  set (s2 := match snd (match find2 k (s2_files s) with Some g => (mkSt2 (put2 k g (s2_map s)) (s2_files s), Some g) | None => (s, None) end) with
             | None => fst (UpdateGroupFromServer z me (Answered e b) w1 key (saveGroupV2 w0 k (mkSt2 (put2 k (g2_new key rev) (s2_map s)) (s2_files s))))
             | Some g => if is_nil (eg_title (g2_ctx g)) then fst (UpdateGroupFromServer z me (Answered e b) w1 (g2_key g) (mkSt2 (put2 k g (s2_map s)) (s2_files s)))
                         else mkSt2 (put2 k g (s2_map s)) (s2_files s)
             end).
  assert (P : exists g d1, find2 k (s2_map s2) = Some g /\ g2_key g = key /\ g2_dec g = Some d1 /\
    (d1 = d \/ exists g0, find2 k (s2_files s) = Some g0 /\ g2_dec g0 = Some d1)).
  { unfold s2. destruct (find2 k (s2_files s)) as [g|] eqn:F; cbn [snd].
    - destruct (Hk g eq_refl) as [K D]. destruct (g2_dec g) as [d0|] eqn:D0; [|now elim D].
      destruct (is_nil (eg_title (g2_ctx g))).
      + rewrite K. unfold k at 1. rewrite (update_answered z me e b w1 key _ g); [|cbn [s2_map]; rewrite find_put2; unfold k; rewrite beq_refl; reflexivity|exact K|exact Z].
        eexists. exists d. split; [reflexivity|]. rewrite dgfs_key, dgfs_dec, K. auto 6.
      + cbn [s2_map]. exists g, d0. rewrite find_put2, beq_refl. split; [reflexivity|]. split; [exact K|]. split; [exact D0|]. right. exists g. auto.
    - unfold k at 1. rewrite (update_answered z me e b w1 key _ (g2_new key rev)); [|rewrite save_map; cbn [s2_map]; rewrite find_put2; unfold k; rewrite beq_refl; reflexivity|reflexivity|exact Z].
      eexists. exists d. split; [reflexivity|]. rewrite dgfs_key, dgfs_dec. auto 6. }
  assert (E2 : (let (s1, og) := match find2 k (s2_files s) with Some g => (mkSt2 (put2 k g (s2_map s)) (s2_files s), Some g) | None => (s, None) end in
                match og with
                | None => fst (UpdateGroupFromServer z me (Answered e b) w1 key (saveGroupV2 w0 k (mkSt2 (put2 k (g2_new key rev) (s2_map s1)) (s2_files s1))))
                | Some g => if is_nil (eg_title (g2_ctx g)) then fst (UpdateGroupFromServer z me (Answered e b) w1 (g2_key g) s1) else s1
                end) = s2).
  { unfold s2. destruct (find2 k (s2_files s)); reflexivity. }
  destruct P as (g & d1 & F & K & D1 & O1).
  destruct (match find2 k (s2_files s) with Some g => (mkSt2 (put2 k g (s2_map s)) (s2_files s), Some g) | None => (s, None) end) as [s1 og].
  rewrite E2, F.
  assert (U : find2 k (s2_map (fst (UpdateGroupFromServer z me (Answered e b) w2 (g2_key g) s2))) = Some (fst (decryptGroupFromServer z me e g))).
  { rewrite K. apply update_answered; auto. }
  assert (UD : g2_dec (fst (decryptGroupFromServer z me e g)) = Some d) by (rewrite dgfs_dec, K; exact De).
  destruct (negb (is_nil (orempty (gc_change c)))) eqn:N.
  - destruct (pb_change z (orempty (gc_change c))) as [acts sig] eqn:PC.
    assert (V : negb (is_nil acts) && negb (zk_verify z acts sig) = false).
    { destruct (Sg acts sig) as [-> | V]; [intros X; rewrite X in N; discriminate|reflexivity|reflexivity|].
      rewrite V. apply andb_false_r. }
    rewrite V. rewrite U. cbn [fst]. eexists. exists d. split; [reflexivity|]. cbn [s2_map]. rewrite find_put2, beq_refl.
    split; [reflexivity|]. split; [exact UD|]. now left.
  - assert (C0 : orempty (gc_change c) = []) by (destruct (orempty (gc_change c)); [reflexivity|discriminate]).
    rewrite D1. destruct (dg_rev d1 =? rev) eqn:R.
    + cbn [fst]. exists g, d1. split; [reflexivity|]. split; [exact F|]. split; [exact D1|].
      destruct O1 as [->|O1]; [now left|]. right. split; [exact C0|]. split; [now apply Z.eqb_eq|exact O1].
    + rewrite U. cbn [fst]. eexists. exists d. split; [reflexivity|]. split; [exact U|]. split; [exact UD|]. now left.
Qed.

Theorem C207_followed_for_a_week : forall z me L serve day0 l now today key c e b d s src w0 w1 w2,
  from_server serve day0 l -> day0 <= now <= day0 + 7 ->
  (forall u dd cr, In (dd, cr) l -> exists ac p, al_receive L u (dd mod 2 ^ 32) cr = Some ac /\ al_present L key ac = Some p) ->
  zk_params z key = true -> decryptGroup z key e = Some d ->
  (* the message is of this group as the server has it; what it says about a change the server signed *)
  gc_master c = Some key -> match gc_rev c with Some r => r | None => 0 end = dg_rev d ->
  (forall acts sig, gc_change c <> None -> pb_change z (orempty (gc_change c)) = (acts, sig) -> acts = [] \/ zk_verify z acts sig = true) ->
  (* what is on disk was read, and is the group of the server if it has its revision *)
  (forall g, find2 (hex key) (s2_files s) = Some g -> g2_key g = key /\ exists d0, g2_dec g = Some d0 /\ (dg_rev d0 = dg_rev d -> d0 = d)) ->
  let a := fst (ask L serve (fun _ => Answered e b) now today me key (Some l)) in
  let s' := fst (HandleGroupsV2 z me src c a a w0 w1 w2 s) in
  (exists g, snd (HandleGroupsV2 z me src c a a w0 w1 w2 s) = Ok g /\ g2_dec g = Some d) /\
  forall a' w out, (exists m, In m (dg_members d) /\ HexToUUID (hex (dm_uuid m)) = me) ->
    let r := sendGroupV2Helper z me a' w out (hex key) s' in addressed d (snd (fst r)) (snd r).
Proof.
  intros z me L serve day0 l now today key c e b d s src w0 w1 w2 [Ho Se] Dy W Z De M R Sg Fi a s'.
  destruct (C206_asked_for_a_week L serve (fun _ => Answered e b) day0 now today me key l Ho Se W Dy) as [h A].
  assert (Ea : a = Answered e b) by (unfold a; rewrite A; reflexivity).
  destruct (handled_dec z me src c e b a w0 w1 w2 s key d M) as (g & d' & E & F & D & O); auto.
  { intros g G. destruct (Fi g G) as [K (d0 & D0 & _)]. split; [exact K|congruence]. }
  assert (X : d' = d).
  { destruct O as [->|(_ & O & g0 & G0 & D0)]; [reflexivity|]. destruct (Fi g0 G0) as [_ (d1 & D1 & C1)].
    assert (d1 = d') by congruence. subst d1. apply C1. congruence. }
  subst d'. split; [exists g; rewrite E; auto|].
  intros a' w out (m & I & Me). unfold sendGroupV2Helper. fold s' in F.
  assert (FG : FindGroup (hex key) s' = (s', Some g)).
  { unfold FindGroup. destruct (s2_map s') eqn:SM; [discriminate|]. rewrite F. reflexivity. }
  rewrite FG.
  assert (J : g2_join (CheckJoinStatus z me g) = J_MEMBER).
  { unfold CheckJoinStatus. rewrite D. cbn [set_join g2_join].
    replace (existsb _ _) with true; [reflexivity|]. symmetry. apply existsb_exists. exists m. split; [exact I|]. rewrite Me. apply beq_refl. }
  rewrite J. change (negb (J_MEMBER =? J_MEMBER)) with false. cbn iota. rewrite check_dec, D. cbn [s2_map]. rewrite find_put2, beq_refl, check_dec, D.
  destruct (dg_members d) as [|m0 ms] eqn:DM; [destruct I|].
  pose proof (send2_addressed out (m0 :: ms) 0%nat 0) as S2. destruct (send2 out 0 (m0 :: ms) 0) as [x tried]. cbn [fst snd] in *.
  destruct S2 as (l0 & rest & E0 & F0 & A0). exists l0, rest. rewrite DM. auto.
Qed.
Print Assumptions C207_followed_for_a_week.
