(* C148 an echo goes back where the message came from; C149 published messages name where they came from; C150 a message is shown
   once; C151 a message of the command line goes to the one who was named; C152 groups can be given on the command line; C153 the
   attachment that is sent is the file that was uploaded; C154 success means that everything was sent; C155 uploads touch no other
   files; C156 what is sent to a group goes to a group; C157 the identity of a peer can be forgotten; C158 every request is answered;
   C159 all groups are listed. *)
From Coq Require Import ZArith List Lia Bool Permutation.
From Verif Require Import Bytes Res Encodings Gateway.
Import ListNotations.
Open Scope Z_scope.

(* ---- what the theorems speak about ---- *)

(* where a message came from: a group of either kind, or its sender *)
Definition origin (m : cmsg) : bool * bytes :=
  match cm_group m, cm_group2 m with
  | Some g, _ => (true, g)
  | None, Some g => (true, g)
  | None, None => (false, cm_source m)
  end.
Definition shown (es : list effect) : list cmsg := flat_map (fun e => match e with Shown m => [m] | _ => [] end) es.
Definition hooked (es : list effect) : list cmsg := flat_map (fun e => match e with Hooked m => [m] | _ => [] end) es.
Definition saved (es : list effect) : list bytes := flat_map (fun e => match e with SavedAttachment _ b => [b] | _ => [] end) es.
Definition published (es : list effect) : list (bytes * bytes) := flat_map (fun e => match e with Published t x => [(t, x)] | _ => [] end) es.
Definition sent (es : list effect) : list (bool * bytes * bytes) := flat_map (fun e => match e with Sent g t x => [(g, t, x)] | _ => [] end) es.
(* fields with colons between them *)
Fixpoint join_colon (l : list bytes) : bytes := match l with [] => [] | [x] => x | x :: r => x ++ 58 :: join_colon r end.
Definition no_colon (x : bytes) : Prop := Forall (fun c => c <> 58) x.

(* ---- C148 ---- *)
Theorem C148_one_answer : forall f m cur, fl_echo f = true -> exists g to, messageHandler f m cur = (cur, [Sent g to (cm_text m)]).
Proof. intros f m cur E. unfold messageHandler. rewrite E. destruct (cm_group m) as [g|]; eexists _, _; reflexivity. Qed.
Print Assumptions C148_one_answer.
Theorem C148_echo_partial : forall f m cur, fl_echo f = true -> cm_group2 m = None ->
  sent (snd (messageHandler f m cur)) = [(fst (origin m), snd (origin m), cm_text m)].
Proof. intros f m cur E N. unfold messageHandler, origin. rewrite E, N. destruct (cm_group m); reflexivity. Qed.
Print Assumptions C148_echo_partial.
(* a message to a group of the second version is answered to its sender alone *)
Theorem C148_group_message_answered_alone : forall f m cur g, fl_echo f = true -> cm_group m = None -> cm_group2 m = Some g ->
  sent (snd (messageHandler f m cur)) = [(false, cm_source m, cm_text m)].
Proof. intros f m cur g E N _. unfold messageHandler. rewrite E, N. reflexivity. Qed.
Print Assumptions C148_group_message_answered_alone.
Definition ex_echo : flags := mkFlags true [] false false.
Definition ex_m2 : cmsg := mkCmsg [97] None (Some [98; 98]) [104; 105] [].
Theorem C148_echo_refuted : exists f m cur, fl_echo f = true /\ sent (snd (messageHandler f m cur)) <> [(fst (origin m), snd (origin m), cm_text m)].
Proof. exists ex_echo, ex_m2, []. split; [reflexivity|]. vm_compute. intros H. discriminate H. Qed.
Print Assumptions C148_echo_refuted.

(* ---- C149 ---- *)
Lemma published_app a b : published (a ++ b) = published a ++ published b.
Proof. apply flat_map_app. Qed.
Lemma published_one f m cur : fl_echo f = false -> fl_redis f = true ->
  published (snd (messageHandler f m cur)) = [(fst (messageHandler f m cur), cm_text m)].
Proof.
  intros E R. unfold messageHandler. rewrite E, R. cbn [fst snd]. rewrite !published_app.
  assert (P1 : published (match cm_text m with [] => [] | _ => [Shown m] ++ (match fl_hook f with [] => [] | _ => [Hooked m] end) ++ (if fl_raw f then [] else [Shown m]) end) = [])
    by (destruct (cm_text m); [reflexivity|]; destruct (fl_hook f); destruct (fl_raw f); reflexivity).
  assert (P2 : published (map (SavedAttachment (cm_source m)) (cm_atts m)) = []) by (induction (cm_atts m) as [|a l IH]; [reflexivity|exact IH]).
  rewrite P1, P2. destruct cur; reflexivity.
Qed.
(* Every text is published, in order ... *)
Theorem C149_every_text_published : forall f ms cur, fl_echo f = false -> fl_redis f = true ->
  map snd (flat_map published (snd (messages f ms cur))) = map cm_text ms.
Proof.
  intros f ms cur E R. revert cur. induction ms as [|m ms IH]; intros cur; [reflexivity|]. cbn [messages].
  pose proof (published_one f m cur E R) as P. destruct (messageHandler f m cur) as [c e]. specialize (IH c). destruct (messages f ms c) as [c' es].
  cbn [snd fst flat_map] in *. rewrite P. cbn [app map snd]. f_equal. exact IH.
Qed.
Print Assumptions C149_every_text_published.
(* ... but all under the name of the first sender, or of the peer named on the command line. *)
Theorem C149_first_sender_for_all : forall f ms cur, fl_echo f = false -> fl_redis f = true ->
  cur <> [] -> Forall (fun p => fst p = cur) (flat_map published (snd (messages f ms cur))).
Proof.
  intros f ms cur E R N. induction ms as [|m ms IH]; [apply Forall_nil|]. cbn [messages].
  pose proof (published_one f m cur E R) as P.
  assert (K : fst (messageHandler f m cur) = cur).
  { unfold messageHandler. rewrite E. cbn [fst]. destruct cur; [elim N; reflexivity|reflexivity]. }
  destruct (messageHandler f m cur) as [c e]. cbn [fst snd] in *. rewrite K. destruct (messages f ms cur) as [c' es]. cbn [snd flat_map] in *.
  rewrite P, K. cbn [app]. apply Forall_cons; [reflexivity|exact IH].
Qed.
Print Assumptions C149_first_sender_for_all.
Definition ex_redis : flags := mkFlags false [] true true.
Definition ex_from (x : Z) (t : bytes) : cmsg := mkCmsg [x] None None t [].
Theorem C149_published_names_sender_refuted : exists f ms, fl_echo f = false /\ fl_redis f = true /\ length ms = 2%nat /\
  flat_map published (snd (messages f ms [])) <> map (fun m => (snd (origin m), cm_text m)) ms.
Proof.
  exists ex_redis, [ex_from 97 [49]; ex_from 98 [50]]. split; [reflexivity|]. split; [reflexivity|]. split; [reflexivity|]. vm_compute. intros H. discriminate H.
Qed.
Print Assumptions C149_published_names_sender_refuted.

(* ---- C150 ---- *)
Theorem C150_how_often_shown : forall f m cur, fl_echo f = false ->
  let es := snd (messageHandler f m cur) in
  shown es = (match cm_text m with [] => [] | _ => if fl_raw f then [m] else [m; m] end) /\
  hooked es = (match cm_text m, fl_hook f with [], _ | _, [] => [] | _, _ => [m] end) /\
  saved es = cm_atts m.
Proof.
  intros f m cur E es. subst es. unfold messageHandler. rewrite E. cbn [snd].
  set (talk := match cur with [] => if fl_redis f then [] else [Conversation _ _] | _ => [] end).
  set (pub := if fl_redis f then [Published _ _] else []).
  set (save := map (SavedAttachment (cm_source m)) (cm_atts m)).
  assert (S0 : shown save = [] /\ hooked save = [] /\ saved save = cm_atts m).
  { unfold save. induction (cm_atts m) as [|a l (I1 & I2 & I3)]; [split; [reflexivity|]; split; reflexivity|]. split; [exact I1|]. split; [exact I2|].
    cbn [map saved flat_map app]. f_equal. exact I3. }
  assert (T : shown (talk ++ pub) = [] /\ hooked (talk ++ pub) = [] /\ saved (talk ++ pub) = [])
    by (unfold talk, pub; destruct cur; destruct (fl_redis f); split; try reflexivity; split; reflexivity).
  destruct S0 as (S1 & S2 & S3). destruct T as (T1 & T2 & T3).
  unfold shown, hooked, saved in *. rewrite !flat_map_app. rewrite <- !flat_map_app with (l1 := talk).
  rewrite S1, S2, S3, T1, T2, T3, !app_nil_r.
  destruct (cm_text m); destruct (fl_hook f); destruct (fl_raw f); split; try reflexivity; split; reflexivity.
Qed.
Print Assumptions C150_how_often_shown.
Theorem C150_shown_once_refuted : exists f m cur, fl_echo f = false /\ cm_text m <> [] /\ shown (snd (messageHandler f m cur)) = [m; m].
Proof.
  exists (mkFlags false [] false false), (ex_from 97 [49]), [98]. split; [reflexivity|]. split; [intros H; discriminate H|]. reflexivity.
Qed.
Print Assumptions C150_shown_once_refuted.

(* ---- C151 ---- *)
Section R.
Variable fold_eq : bytes -> bytes -> bool.
Lemma resolve_cases cs dest : (exists n, In (n, resolve fold_eq cs dest) cs /\ fold_eq n dest = true) \/
  (resolve fold_eq cs dest = dest /\ forall n u, In (n, u) cs -> fold_eq n dest = false).
Proof.
  induction cs as [|[n u] cs IH]; [right; split; [reflexivity|intros n u []]|]. cbn [resolve]. destruct (fold_eq n dest) eqn:E.
  - left. exists n. split; [left; reflexivity|exact E].
  - destruct IH as [(k & I & F)|[R N]]; [left; exists k; split; [right; exact I|exact F]|right; split; [exact R|]].
    intros k v [H|H]; [injection H as <- <-; exact E|exact (N k v H)].
Qed.
(* A name that only one contact has stands for that contact, in whatever order they are ... *)
Theorem C151_named_contact : forall cs cs' isGroup dest name uuid text, In (name, uuid) cs -> fold_eq name dest = true ->
  (forall n u, In (n, u) cs -> fold_eq n dest = true -> u = uuid) -> uuid <> [] -> text <> [] -> Permutation cs cs' ->
  command fold_eq cs' isGroup dest text = [Sent isGroup uuid text].
Proof.
  intros cs cs' isGroup dest name uuid text I F U Nu Nt P. unfold command.
  assert (E : resolve fold_eq cs' dest = uuid).
  { destruct (resolve_cases cs' dest) as [(n & I' & F')|[_ N]].
    - apply (U n); [|exact F']. apply (Permutation_in _ (Permutation_sym P)). exact I'.
    - rewrite (N name uuid (Permutation_in _ P I)) in F. discriminate F. }
  rewrite E. destruct uuid; [elim Nu; reflexivity|]. destruct text; [elim Nt; reflexivity|]. reflexivity.
Qed.
(* ... anything else stands for itself, and if nobody is named nothing is sent, provided every contact has a name. *)
Theorem C151_number : forall cs isGroup dest text, (forall n u, In (n, u) cs -> fold_eq n dest = false) -> text <> [] ->
  command fold_eq cs isGroup dest text = match dest with [] => [] | _ => [Sent isGroup dest text] end.
Proof.
  intros cs isGroup dest text N Nt. unfold command. destruct (resolve_cases cs dest) as [(n & I & F)|[R _]].
  - rewrite (N _ _ I) in F. discriminate F.
  - rewrite R. destruct dest; [reflexivity|]. destruct text; [elim Nt; reflexivity|reflexivity].
Qed.
End R.
Print Assumptions C151_named_contact.
Print Assumptions C151_number.
(* With a contact without a name a message that is to go to nobody goes to them. *)
Theorem C151_nobody_named_refuted : exists fold_eq cs text uuid, (forall x y, fold_eq x y = beq x y) /\ text <> [] /\
  command fold_eq cs false [] text = [Sent false uuid text] /\ uuid <> [].
Proof.
  exists beq, [([65], [49]); ([], [50])], [104; 105], [50]. split; [reflexivity|]. split; [intros H; discriminate H|]. split; [vm_compute; reflexivity|].
  intros H. discriminate H.
Qed.
Print Assumptions C151_nobody_named_refuted.
Example C151_example : command beq [([65], [49]); ([66], [50])] false [66] [104; 105] = [Sent false [50] [104; 105]].
Proof. reflexivity. Qed.

(* ---- C152 ---- *)
Lemma split_field x rest : no_colon x -> split_colon (x ++ 58 :: rest) = x :: split_colon rest.
Proof.
  intros N. induction N as [|c x E _ IH]; [reflexivity|]. cbn [app split_colon]. rewrite (proj2 (Z.eqb_neq c 58) E), IH. reflexivity.
Qed.
Lemma split_single x : no_colon x -> split_colon x = [x].
Proof. intros N. induction N as [|c x E _ IH]; [reflexivity|]. cbn [split_colon]. rewrite (proj2 (Z.eqb_neq c 58) E), IH. reflexivity. Qed.
Lemma split_join l : l <> [] -> Forall no_colon l -> split_colon (join_colon l) = l.
Proof.
  induction l as [|x l IH]; intros N F; [elim N; reflexivity|]. inversion F as [|? ? F1 F2]; subst. destruct l as [|y l].
  - apply split_single. exact F1.
  - change (join_colon (x :: y :: l)) with (x ++ 58 :: join_colon (y :: l)). rewrite split_field by exact F1. f_equal. apply IH; [intros H; discriminate H|exact F2].
Qed.
Theorem C152_fields_arrive : forall hexid name ms, no_colon hexid -> no_colon name -> Forall no_colon ms ->
  newgroup_args (join_colon (name :: ms)) = (name, ms) /\ updategroup_args (join_colon (hexid :: name :: ms)) = Ok (hexid, name, ms).
Proof.
  intros hexid name ms H N F. unfold newgroup_args, updategroup_args. rewrite !split_join.
  - split; reflexivity.
  - intros X. discriminate X.
  - apply Forall_cons; [exact H|]. apply Forall_cons; [exact N|exact F].
  - intros X. discriminate X.
  - apply Forall_cons; [exact N|exact F].
Qed.
Print Assumptions C152_fields_arrive.
Lemma split_pair arg : In 58 arg -> exists a b l, split_colon arg = a :: b :: l.
Proof.
  induction arg as [|c t IH]; intros H; [destruct H|]. cbn [split_colon]. destruct (Z.eqb_spec c 58) as [->|N].
  - destruct (split_colon t) as [|b l] eqn:S; [|exists [], b, l; reflexivity]. exfalso. destruct t as [|d t]; [discriminate S|].
    cbn [split_colon] in S. destruct (d =? 58); [discriminate S|]. destruct (split_colon t); discriminate S.
  - destruct H as [H|H]; [elim N; exact H|]. destruct (IH H) as (a & b & l & ->). eexists _, _, _. reflexivity.
Qed.
Theorem C152_when_it_crashes : forall arg, updategroup_args arg = Panic <-> ~ In 58 arg.
Proof.
  intros arg. unfold updategroup_args. split.
  - intros H I. destruct (split_pair arg I) as (a & b & l & E). rewrite E in H. discriminate H.
  - intros N. rewrite split_single; [reflexivity|]. apply Forall_forall. intros c I E. apply N. rewrite <- E. exact I.
Qed.
Print Assumptions C152_when_it_crashes.
Theorem C152_crash_refuted : exists arg, arg <> [] /\ updategroup_args arg = Panic.
Proof. exists [97; 98]. split; [intros H; discriminate H|reflexivity]. Qed.
Print Assumptions C152_crash_refuted.

(* ---- C153 to C155 ---- *)
Lemma tread_write_same n b t : tread n (twrite n b t) = Some b.
Proof.
  induction t as [|[k c] t IH]; cbn [twrite tread]; [rewrite beq_refl; reflexivity|]. destruct (beq n k) eqn:E; cbn [tread]; [rewrite beq_refl; reflexivity|].
  rewrite E. exact IH.
Qed.
Lemma tread_write_other m n b t : m <> n -> tread m (twrite n b t) = tread m t.
Proof.
  intros N. induction t as [|[k c] t IH]; cbn [twrite tread].
  - destruct (beq m n) eqn:E; [apply beq_eq in E; elim N; exact E|reflexivity].
  - destruct (beq n k) eqn:E; cbn [tread].
    + apply beq_eq in E. rewrite <- E. destruct (beq m n) eqn:E2; [apply beq_eq in E2; elim N; exact E2|reflexivity].
    + destruct (beq m k); [reflexivity|exact IH].
Qed.
Lemma tread_remove_other m n t : m <> n -> tread m (tremove n t) = tread m t.
Proof.
  intros N. induction t as [|[k c] t IH]; [reflexivity|]. cbn [tremove]. destruct (beq n k) eqn:E.
  - rewrite IH. cbn [tread]. apply beq_eq in E. rewrite <- E. destruct (beq m n) eqn:E2; [apply beq_eq in E2; elim N; exact E2|reflexivity].
  - cbn [tread]. destruct (beq m k); [reflexivity|exact IH].
Qed.
Lemma tread_remove_same n t : tread n (tremove n t) = None.
Proof. induction t as [|[k c] t IH]; [reflexivity|]. cbn [tremove]. destruct (beq n k) eqn:E; [exact IH|]. cbn [tread]. rewrite E. exact IH. Qed.

(* C153. What is attached is the upload followed by the part of an older file of that name that was longer; so it is the upload if
   there was no such file, or none longer. *)
Theorem C153_what_is_attached : forall out can_open removable u t t' h ok n b, u_post u = true -> u_file u = Some (n, b) -> can_open n = true ->
  u_text u <> [] -> u_to u <> [] -> GatewayHandler out can_open removable u t = (t', h, ok) ->
  exists x, h = Some x /\ h_to x = u_to u /\ h_text x = u_text u /\
    h_file x = Some (b ++ match tread n t with Some old => skipn (length b) old | None => [] end).
Proof.
  intros out can_open removable u t t' h ok n b P F O Nt Nd H. unfold GatewayHandler in H. rewrite P, F, O in H. cbn [negb] in H.
  destruct (u_text u) as [|c s]; [elim Nt; reflexivity|]. destruct (u_to u) as [|d s']; [elim Nd; reflexivity|].
  unfold GatewaySend in H. rewrite tread_write_same in H. injection H as _ <- _. eexists. split; [reflexivity|]. split; [reflexivity|]. split; reflexivity.
Qed.
Print Assumptions C153_what_is_attached.
Theorem C153_attachment_partial : forall out can_open removable u t t' h ok n b, u_post u = true -> u_file u = Some (n, b) -> can_open n = true ->
  u_text u <> [] -> u_to u <> [] -> (forall old, tread n t = Some old -> (length old <= length b)%nat) ->
  GatewayHandler out can_open removable u t = (t', h, ok) -> exists x, h = Some x /\ h_file x = Some b.
Proof.
  intros out can_open removable u t t' h ok n b P F O Nt Nd L H.
  destruct (C153_what_is_attached _ _ _ _ _ _ _ _ _ _ P F O Nt Nd H) as (x & E & _ & _ & A). exists x. split; [exact E|]. rewrite A. f_equal.
  destruct (tread n t) as [old|]; [|apply app_nil_r]. rewrite skipn_all2 by (apply L; reflexivity). apply app_nil_r.
Qed.
Print Assumptions C153_attachment_partial.
(* A file that was uploaded without a text stays, and the end of it is sent with the next file of that name - to somebody else. *)
Definition ex_up1 : upload := mkUpload true [] [65] (Some ([102], [1; 2; 3; 4; 5])).
Definition ex_up2 : upload := mkUpload true [104; 105] [66] (Some ([102], [9; 9])).
Theorem C153_attachment_refuted : exists out can_open l t h, (forall n, can_open n = true) /\ (forall x, out x = Ok tt) /\ l = [ex_up1; ex_up2] /\
  uploads out can_open true l [] = (t, [(None, false); (Some h, true)]) /\ h_to h = [66] /\ h_file h = Some [9; 9; 3; 4; 5].
Proof.
  exists (fun _ => Ok tt), (fun _ => true), [ex_up1; ex_up2]. eexists _, _. split; [reflexivity|]. split; [reflexivity|]. split; [reflexivity|].
  split; [vm_compute; reflexivity|]. split; reflexivity.
Qed.
Print Assumptions C153_attachment_refuted.

(* C154. A request that is answered with success has handed its text to its recipient, and that was sent without an error - with its
   file, if the file could be opened in /tmp. *)
Theorem C154_success : forall out can_open removable u t t' h ok, GatewayHandler out can_open removable u t = (t', h, ok) ->
  (ok = true <-> exists x, h = Some x /\ out x = Ok tt) /\
  (forall x, h = Some x -> u_post u = true /\ h_to x = u_to u /\ h_text x = u_text u /\ u_text u <> [] /\ u_to u <> [] /\
     (h_file x <> None <-> exists n b, u_file u = Some (n, b) /\ can_open n = true)).
Proof.
  intros out can_open removable u t t' h ok H. unfold GatewayHandler in H. destruct (u_post u); cbn [negb] in H.
  2:{ injection H as _ <- <-. split; [split; [intros X; discriminate X|intros (x & X & _); discriminate X]|intros x X; discriminate X]. }
  assert (No : forall tt', (tt', None, false) = (t', h, ok) -> (ok = true <-> exists x, h = Some x /\ out x = Ok tt) /\ forall x, h = Some x -> False).
  { intros tt' E. injection E as _ <- <-. split; [split; [intros X; discriminate X|intros (x & X & _); discriminate X]|intros x X; discriminate X]. }
  assert (Send : forall x tt', (tt', Some x, match out x with Ok _ => true | _ => false end) = (t', h, ok) ->
    (ok = true <-> exists y, h = Some y /\ out y = Ok tt) /\ forall y, h = Some y -> y = x).
  { intros x tt' E. injection E as _ <- <-. split; [|intros y X; injection X as <-; reflexivity]. split.
    - intros K. exists x. split; [reflexivity|]. destruct (out x) as [[]|e|]; [reflexivity|discriminate K|discriminate K].
    - intros (y & X & O). injection X as <-. rewrite O. reflexivity. }
  set (p := match u_file u with Some (n, b) => _ | None => _ end) in H.
  assert (Pf : forall t1 fn, p = (t1, fn) -> (fn <> None <-> exists n b, u_file u = Some (n, b) /\ can_open n = true) /\ forall n, fn = Some n -> exists b, tread n t1 = Some b).
  { intros t1 fn E. unfold p in E. destruct (u_file u) as [[n b]|] eqn:Uf.
    - destruct (can_open n) eqn:O; injection E as <- <-.
      + split; [split; [intros _; exists n, b; split; [reflexivity|exact O]|intros _ X; discriminate X]|]. intros k X. injection X as <-.
        eexists. apply tread_write_same.
      + split; [split; [intros X; elim X; reflexivity|]|intros k X; discriminate X].
        intros (k & c & X & Y). injection X as <- <-. rewrite O in Y. discriminate Y.
    - injection E as <- <-. split; [split; [intros X; elim X; reflexivity|intros (k & c & X & _); discriminate X]|intros k X; discriminate X]. }
  destruct p as [t1 fn]. destruct (Pf t1 fn eq_refl) as [Fn Rd].
  destruct (u_text u) as [|c s]; [destruct (No _ H) as [A B]; split; [exact A|intros x X; destruct (B x X)]|].
  destruct (u_to u) as [|d s']; [destruct (No _ H) as [A B]; split; [exact A|intros x X; destruct (B x X)]|].
  unfold GatewaySend in H. destruct fn as [n|].
  - destruct (Rd n eq_refl) as [b Eb]. rewrite Eb in H. destruct (Send _ _ H) as [A B]. split; [exact A|]. intros x X. rewrite (B x X). cbn [h_to h_text h_file].
    split; [reflexivity|]. split; [reflexivity|]. split; [reflexivity|]. split; [intros Z; discriminate Z|]. split; [intros Z; discriminate Z|].
    rewrite <- Fn. split; intros _ Z; discriminate Z.
  - destruct (Send _ _ H) as [A B]. split; [exact A|]. intros x X. rewrite (B x X). cbn [h_to h_text h_file].
    split; [reflexivity|]. split; [reflexivity|]. split; [reflexivity|]. split; [intros Z; discriminate Z|]. split; [intros Z; discriminate Z|].
    rewrite <- Fn. split; intros Z; elim Z; reflexivity.
Qed.
Print Assumptions C154_success.
(* If it could not be opened there, the text is sent without the file, and that is called a success. *)
Theorem C154_everything_sent_refuted : exists out can_open u t t' h n b, u_file u = Some (n, b) /\ b <> [] /\
  GatewayHandler out can_open true u t = (t', Some h, true) /\ h_file h = None.
Proof.
  exists (fun _ => Ok tt), (fun _ => false), ex_up2, []. eexists _, _, [102], [9; 9]. split; [reflexivity|]. split; [intros H; discriminate H|].
  split; [vm_compute; reflexivity|reflexivity].
Qed.
Print Assumptions C154_everything_sent_refuted.

(* C155. A request changes no file in /tmp but the one with the name of its upload ... *)
Theorem C155_other_files : forall out can_open removable u t t' h ok m, GatewayHandler out can_open removable u t = (t', h, ok) ->
  (forall n b, u_file u = Some (n, b) -> m <> n) -> tread m t' = tread m t.
Proof.
  intros out can_open removable u t t' h ok m H N. unfold GatewayHandler in H. destruct (u_post u); cbn [negb] in H; [|injection H as <- _ _; reflexivity].
  set (p := match u_file u with Some (n, b) => _ | None => _ end) in H.
  assert (Pf : forall t1 fn, p = (t1, fn) -> tread m t1 = tread m t /\ forall n, fn = Some n -> m <> n).
  { intros t1 fn E. unfold p in E. destruct (u_file u) as [[n b]|] eqn:Uf.
    - specialize (N n b eq_refl). destruct (can_open n); injection E as <- <-.
      + split; [apply tread_write_other; exact N|]. intros k X. injection X as <-. exact N.
      + split; [reflexivity|]. intros k X. discriminate X.
    - injection E as <- <-. split; [reflexivity|]. intros k X. discriminate X. }
  destruct p as [t1 fn]. destruct (Pf t1 fn eq_refl) as [R Nn].
  destruct (u_text u); [injection H as <- _ _; exact R|]. destruct (u_to u); [injection H as <- _ _; exact R|]. unfold GatewaySend in H.
  destruct fn as [n|]; [|injection H as <- _ _; exact R]. destruct (tread n t1); [|injection H as <- _ _; exact R].
  destruct removable; injection H as <- _ _; [|exact R]. rewrite tread_remove_other by (apply Nn; reflexivity). exact R.
Qed.
Print Assumptions C155_other_files.
(* ... and after a message was handed on that one is gone ... *)
Theorem C155_cleaned_up : forall out can_open u t t' x ok n b, GatewayHandler out can_open true u t = (t', Some x, ok) -> u_file u = Some (n, b) ->
  can_open n = true -> tread n t' = None.
Proof.
  intros out can_open u t t' x ok n b H F O. unfold GatewayHandler in H. rewrite F, O in H. destruct (u_post u); cbn [negb] in H; [|discriminate H].
  destruct (u_text u); [discriminate H|]. destruct (u_to u); [discriminate H|]. unfold GatewaySend in H. rewrite tread_write_same in H.
  injection H as <- _ _. apply tread_remove_same.
Qed.
Print Assumptions C155_cleaned_up.
(* ... even if it was there before, and somebody else's. *)
Theorem C155_files_of_others_refuted : exists out can_open u t t' h ok n old, tread n t = Some old /\ (forall k, can_open k = true) /\
  GatewayHandler out can_open true u t = (t', h, ok) /\ tread n t' = None.
Proof.
  exists (fun _ => Ok tt), (fun _ => true), ex_up2, [([102], [7])]. eexists _, _, _, [102], [7]. split; [reflexivity|]. split; [reflexivity|].
  split; vm_compute; reflexivity.
Qed.
Print Assumptions C155_files_of_others_refuted.

(* ---- C156 ---- *)
Lemma hex_length l : length (hex l) = (2 * length l)%nat.
Proof. induction l as [|b l IH]; [reflexivity|]. cbn [hex length]. rewrite IH. lia. Qed.
Lemma hex_digits l : wfb l -> forallb hex_digit (hex l) = true.
Proof.
  intros W. induction W as [|b l B _ IH]; [reflexivity|]. cbn [hex forallb]. rewrite IH, andb_true_r. unfold isbyte in B.
  assert (D : forall v, 0 <= v < 16 -> hex_digit (hexdigit v) = true).
  { intros v V. unfold hexdigit, hex_digit. destruct (Z.ltb_spec v 10) as [L|L];
      destruct (Z.leb_spec 97 (48 + v)); destruct (Z.leb_spec (48 + v) 102); destruct (Z.leb_spec 48 (48 + v)); destruct (Z.leb_spec (48 + v) 57);
      destruct (Z.leb_spec 97 (87 + v)); destruct (Z.leb_spec (87 + v) 102); destruct (Z.leb_spec 48 (87 + v)); destruct (Z.leb_spec (87 + v) 57); cbn; try reflexivity; lia. }
  rewrite !D; [reflexivity| |]; [pose proof (Z.mod_pos_bound b 16 ltac:(lia)); lia|].
  split; [apply Z.div_pos; lia|apply Z.div_lt_upper_bound; lia].
Qed.
(* Something sent to the id of a group goes to a group exactly if the id has 32 bytes, as that of a group of the second version ... *)
Theorem C156_to_a_group : forall id, wfb id -> (is_group (hex id) = true <-> length id = 32%nat).
Proof.
  intros id W. unfold is_group. rewrite hex_length, hex_digits, andb_true_r by exact W. rewrite Nat.eqb_eq. lia.
Qed.
Print Assumptions C156_to_a_group.
Theorem C156_handed_to_group : forall out removable id text file t t' x ok, wfb id -> length id = 32%nat ->
  GatewaySend out removable (hex id) text file t = (t', Some x, ok) -> h_group x = true /\ h_to x = hex id.
Proof.
  intros out removable id text file t t' x ok W L H. pose proof (proj2 (C156_to_a_group id W) L) as G. unfold GatewaySend in H. rewrite G in H.
  destruct file as [n|]; [destruct (tread n t); [|discriminate H]|]; injection H as _ <- _; split; reflexivity.
Qed.
Print Assumptions C156_handed_to_group.
(* ... but the ids of the groups that are made here have 16. *)
Theorem C156_group_refuted : exists out id text x, wfb id /\ length id = 16%nat /\
  GatewaySend out true (hex id) text None [] = ([], Some x, true) /\ h_group x = false.
Proof.
  exists (fun _ => Ok tt), (repeat 171 16), [104]. eexists. split; [repeat (apply Forall_cons; [unfold isbyte; lia|]); apply Forall_nil|]. split; [reflexivity|].
  split; [vm_compute; reflexivity|reflexivity].
Qed.
Print Assumptions C156_group_refuted.

(* ---- C157 ---- *)
(* ".storage" *)
Definition str_storage : bytes := [46; 115; 116; 111; 114; 97; 103; 101].
(* Only keys of peers are ever removed, and for a peer whose name consists of digits it is the right one, if the storage directory is
   the default one ... *)
Theorem C157_what_is_removed : forall d id p, RekeyHandler d id = Some p -> p = identity_file str_storage id /\ forallb digit10 id = true /\ d = true.
Proof.
  intros d id p H. unfold RekeyHandler in H. destruct d; [|discriminate H]. cbn [andb] in H. destruct (forallb digit10 id) eqn:E; [|discriminate H].
  injection H as <-. split; [reflexivity|]. split; reflexivity.
Qed.
Print Assumptions C157_what_is_removed.
Theorem C157_digits_partial : forall id, forallb digit10 id = true -> RekeyHandler true id = Some (identity_file str_storage id).
Proof. intros id H. unfold RekeyHandler. rewrite H. reflexivity. Qed.
Print Assumptions C157_digits_partial.
(* ... but no request removes the key of a peer with a UUID, or of any peer in another directory of that length. *)
Theorem C157_never_for_others : forall id, forallb digit10 id = false -> forall d id', RekeyHandler d id' <> Some (identity_file str_storage id).
Proof.
  intros id N d id' H. destruct (C157_what_is_removed _ _ _ H) as (E & D & _). unfold identity_file in E. apply app_inv_head in E. apply app_inv_head in E.
  apply app_inv_head in E. injection E as E. rewrite E, D in N. discriminate N.
Qed.
Print Assumptions C157_never_for_others.
Theorem C157_forgotten_refuted : exists id, id <> [] /\ forall d id', RekeyHandler d id' <> Some (identity_file str_storage id).
Proof. exists [97; 49; 45]. split; [intros H; discriminate H|]. apply C157_never_for_others. reflexivity. Qed.
Print Assumptions C157_forgotten_refuted.
Theorem C157_other_directory_refuted : exists storage id, forallb digit10 id = true /\ forall d id', RekeyHandler d id' <> Some (identity_file storage id).
Proof.
  exists [47; 118], [49]. split; [reflexivity|]. intros d id' H. destruct (C157_what_is_removed _ _ _ H) as (E & _). discriminate E.
Qed.
Print Assumptions C157_other_directory_refuted.

(* ---- C158 ---- *)
Theorem C158_when_not_answered : forall out body to, JSONHandler out body to = Panic <-> body = Some JOther.
Proof.
  intros out body to. split; [|intros ->; reflexivity]. destruct body as [[| |s|]|]; intros H; try discriminate H; reflexivity.
Qed.
Print Assumptions C158_when_not_answered.
Theorem C158_text_is_sent : forall out s to, exists x, JSONHandler out (Some (JText s)) to = Ok (Some x, match out x with Ok _ => true | _ => false end) /\
  h_to x = to /\ h_text x = s /\ h_file x = None.
Proof. intros out s to. eexists. split; [reflexivity|]. split; [reflexivity|]. split; reflexivity. Qed.
Print Assumptions C158_text_is_sent.
Theorem C158_answered_refuted : exists out body to, JSONHandler out body to = Panic.
Proof. exists (fun _ => Ok tt), (Some JOther), [65]. reflexivity. Qed.
Print Assumptions C158_answered_refuted.

(* ---- C159 ---- *)
Lemma listed_good l : listed (map Ok l) = l.
Proof. induction l as [|g l IH]; [reflexivity|]. cbn [map listed]. f_equal. exact IH. Qed.
Theorem C159_all_listed_partial : forall l, GroupsHandler (Some (map Ok l)) = Ok l.
Proof. intros l. cbn [GroupsHandler]. rewrite listed_good. reflexivity. Qed.
Print Assumptions C159_all_listed_partial.
Theorem C159_after_a_bad_file : forall l e r, GroupsHandler (Some (map Ok l ++ Err e :: r)) = Ok l.
Proof. intros l e r. cbn [GroupsHandler]. f_equal. induction l as [|g l IH]; [reflexivity|]. cbn [map app listed]. f_equal. exact IH. Qed.
Print Assumptions C159_after_a_bad_file.
Theorem C159_all_listed_refuted : (exists fs g l, In (Ok g) fs /\ GroupsHandler (Some fs) = Ok l /\ ~ In g l) /\ GroupsHandler None = Panic.
Proof.
  split; [|reflexivity]. exists [Err EOther; Ok ([97], [65])], ([97], [65]), []. split; [right; left; reflexivity|]. split; [reflexivity|]. intros [].
Qed.
Print Assumptions C159_all_listed_refuted.
