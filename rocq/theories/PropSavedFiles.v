(* C220: attachments received by the command line program are kept in files of their own
   (/repo/cmd/textsecure/main.go 218-279). *)
From Coq Require Import String Ascii ZArith List Lia Bool.
From Verif Require Import Bytes Gateway SavedFiles.
Import ListNotations.
Open Scope Z_scope.

(* the attachments of some messages, with their senders, in order *)
Definition attached (ms : list cmsg) : list (bytes * bytes) :=
  flat_map (fun m => map (pair (cm_source m)) (cm_atts m)) ms.
Fixpoint txt (s : string) : bytes := match s with EmptyString => [] | String c t => Z.of_nat (nat_of_ascii c) :: txt t end.
Definition own_name : bytes := txt "TextSecure_Attachment".
Definition begins (p w : bytes) : Prop := exists r, w = p ++ r.

Lemma content_app fs gs n : content (fs ++ gs) n = match content fs n with Some b => Some b | None => content gs n end.
Proof. induction fs as [|[m b] fs IH]; [reflexivity|]. cbn [app content]. destruct (beq m n); [reflexivity|apply IH]. Qed.
Lemma content_in fs n : content fs n = None <-> ~ In n (map fst fs).
Proof.
  induction fs as [|[m b] fs IH]; [cbn; intuition|]. cbn [content map fst In]. destruct (beq m n) eqn:E.
  - apply beq_eq in E. subst m. split; [discriminate|]. intros H. elim H. left. reflexivity.
  - rewrite IH. split; [|intuition]. intros H [->|Hin]; [rewrite beq_refl in E; discriminate E|contradiction].
Qed.

Lemma temp_new left su : forall tried fs name n, tempName left su tried fs = (Some name, n) ->
  content fs name = None /\ begins own_name name.
Proof.
  induction left as [|k IH]; intros tried fs name n; cbn [tempName]; [discriminate|].
  destruct (content fs (att_prefix ++ su_end su tried)) eqn:E; [apply IH|]. intros [= <- _]. split; [exact E|].
  exists (su_end su tried). reflexivity.
Qed.

(* one step: nothing, or one new file that holds a beginning of the attachment; all of it if that was noted *)
Inductive step (src data : bytes) (s s' : saved) : Prop :=
| st_none : sa_files s' = sa_files s -> sa_log s' = sa_log s -> step src data s s'
| st_cut name r : content (sa_files s) name = None -> begins own_name name -> (r < List.length data)%nat ->
    sa_files s' = sa_files s ++ [(name, firstn r data)] -> sa_log s' = sa_log s -> step src data s s'
| st_all name : content (sa_files s) name = None -> begins own_name name ->
    sa_files s' = sa_files s ++ [(name, data)] -> sa_log s' = sa_log s ++ [(zlen data, src, name)] -> step src data s s'.
Lemma handle_step su src data s : step src data s (handleAttachment su src data s).
Proof.
  unfold handleAttachment. destruct (su_make su (sa_asked s)); [|apply st_none; reflexivity].
  destruct (tempName attempts_max su (sa_tried s) (sa_files s)) as [[name|] n] eqn:T; [|apply st_none; reflexivity].
  apply temp_new in T. destruct T as (T1 & T2).
  destruct (su_room su (sa_asked s)) as [r|]; [destruct (r <? List.length data)%nat eqn:L|].
  - apply (st_cut _ _ _ _ name r); [exact T1|exact T2|apply Nat.ltb_lt; exact L|reflexivity|reflexivity].
  - apply (st_all _ _ _ _ name); [exact T1|exact T2|reflexivity|reflexivity].
  - apply (st_all _ _ _ _ name); [exact T1|exact T2|reflexivity|reflexivity].
Qed.

Lemma performed_app su s l1 l2 : performed su s (l1 ++ l2) = performed su (performed su s l1) l2.
Proof. apply fold_left_app. Qed.
Lemma performed_save su src l : forall s, performed su s (map (SavedAttachment src) l) = fold_left (fun s d => handleAttachment su src d s) l s.
Proof. induction l as [|d l IH]; intros s; [reflexivity|]. cbn [map performed fold_left perform]. apply IH. Qed.
Lemma performed_other su l : (forall src d, ~ In (SavedAttachment src d) l) -> forall s, performed su s l = s.
Proof.
  intros H s. induction l as [|e l IH]; [reflexivity|]. unfold performed in *. cbn [fold_left].
  assert (E : perform su s e = s) by (destruct e; try reflexivity; elim (H source data); left; reflexivity).
  rewrite E. apply IH. intros src d Hin. apply (H src d). right. exact Hin.
Qed.
Definition each (su : surroundings) (s : saved) (l : list (bytes * bytes)) : saved :=
  fold_left (fun s p => handleAttachment su (fst p) (snd p) s) l s.
Lemma one_message su f m cur s : performed su s (snd (messageHandler f m cur)) =
  if fl_echo f then s else each su s (map (pair (cm_source m)) (cm_atts m)).
Proof.
  unfold messageHandler. destruct (fl_echo f).
  { destruct (cm_group m); apply performed_other; intros src d; cbn [snd In]; intuition discriminate. }
  cbn [snd]. rewrite !performed_app.
  rewrite (performed_other su (match cm_text m with [] => [] | _ => _ end)).
  2:{ intros src d. destruct (cm_text m); [intros []|]. destruct (fl_hook f), (fl_raw f); cbn [app In]; intuition discriminate. }
  rewrite performed_save.
  rewrite (performed_other su (match cur with [] => _ | _ => [] end)).
  2:{ intros src d. destruct cur; [|intros []]. destruct (fl_redis f); cbn [In]; intuition discriminate. }
  rewrite (performed_other su (if fl_redis f then _ else [])).
  2:{ intros src d. destruct (fl_redis f); cbn [In]; intuition discriminate. }
  unfold each. generalize s. induction (cm_atts m) as [|d l IH]; intros s0; [reflexivity|]. cbn [map fold_left fst snd]. apply IH.
Qed.
Lemma all_messages su f : forall ms cur s, received su f ms cur s = if fl_echo f then s else each su s (attached ms).
Proof.
  unfold received. induction ms as [|m ms IH]; intros cur s; cbn [messages].
  { cbn [snd concat attached flat_map each fold_left performed]. destruct (fl_echo f); reflexivity. }
  destruct (messageHandler f m cur) as [c e] eqn:M. destruct (messages f ms c) as [c' es] eqn:R. cbn [snd concat].
  rewrite performed_app. replace e with (snd (messageHandler f m cur)) by (rewrite M; reflexivity). rewrite one_message.
  specialize (IH c). rewrite R in IH. cbn [snd] in IH. rewrite IH. destruct (fl_echo f); [reflexivity|].
  unfold each. rewrite <- fold_left_app. reflexivity.
Qed.

(* C220. Files that were there stay as they were, whatever arrives and whatever fails. *)
Theorem C220_others : forall su f ms cur s name b, content (sa_files s) name = Some b ->
  content (sa_files (received su f ms cur s)) name = Some b.
Proof.
  intros su f ms cur s name b. rewrite all_messages. destruct (fl_echo f); [auto|]. unfold each. revert s.
  induction (attached ms) as [|[src d] l IH]; intros s H; [exact H|]. cbn [fold_left fst snd]. apply IH.
  destruct (handle_step su src d s) as [E _|n r _ _ _ E _|n _ _ E _]; rewrite E; [exact H|rewrite content_app, H; reflexivity..].
Qed.
Print Assumptions C220_others.

(* Whatever fails, nothing but beginnings of attachments is written, to new files of the program's own. *)
Theorem C220_only : forall su f ms cur s, exists new,
  sa_files (received su f ms cur s) = sa_files s ++ new /\ (List.length new <= List.length (attached ms))%nat /\
  NoDup (map fst new) /\
  Forall (fun x => content (sa_files s) (fst x) = None /\ begins own_name (fst x) /\
                   exists src data, In (src, data) (attached ms) /\ begins (snd x) data) new.
Proof.
  intros su f ms cur s. rewrite all_messages. destruct (fl_echo f); [exists []; rewrite app_nil_r; repeat split; try constructor; cbn; lia|].
  revert s. induction (attached ms) as [|[src d] l IH]; intros s.
  { exists []. cbn [each fold_left]. rewrite app_nil_r. split; [reflexivity|]. split; [apply le_n|]. split; constructor. }
  cbn [each fold_left fst snd]. fold (each su (handleAttachment su src d s) l).
  destruct (IH (handleAttachment su src d s)) as (new & E & L & D & F). rewrite E.
  assert (ADD : forall name b, content (sa_files s) name = None -> begins own_name name -> begins b d ->
    sa_files (handleAttachment su src d s) = sa_files s ++ [(name, b)] ->
    exists new', sa_files (handleAttachment su src d s) ++ new = sa_files s ++ new' /\ (List.length new' <= List.length ((src, d) :: l))%nat /\
      NoDup (map fst new') /\
      Forall (fun x => content (sa_files s) (fst x) = None /\ begins own_name (fst x) /\
                   exists src0 data, In (src0, data) ((src, d) :: l) /\ begins (snd x) data) new').
  { intros name b N P B EF. exists ((name, b) :: new). rewrite EF in *. split; [rewrite <- app_assoc; reflexivity|].
    split; [cbn [List.length]; lia|]. rewrite Forall_forall in F. split.
    { cbn [map fst]. constructor; [|exact D]. intros Hin. apply in_map_iff in Hin. destruct Hin as (x & <- & Hx).
      destruct (F x Hx) as (F1 & _). rewrite content_app, N in F1. cbn [content] in F1. rewrite beq_refl in F1. discriminate F1. }
    constructor.
    { cbn [fst snd]. split; [exact N|]. split; [exact P|]. exists src, d. split; [left; reflexivity|exact B]. }
    apply Forall_forall. intros x Hx. destruct (F x Hx) as (F1 & F2 & src0 & data & Hin & B0). split.
    { rewrite content_app in F1. destruct (content (sa_files s) (fst x)); [discriminate F1|reflexivity]. }
    split; [exact F2|]. exists src0, data. split; [right; exact Hin|exact B0]. }
  destruct (handle_step su src d s) as [E1 _|n r N P R E1 _|n N P E1 _].
  - exists new. rewrite E1 in *. split; [reflexivity|]. split; [cbn [List.length]; lia|]. split; [exact D|].
    eapply Forall_impl; [|exact F]. intros x (F1 & F2 & src0 & data & Hin & B0). split; [exact F1|]. split; [exact F2|].
    exists src0, data. split; [right; exact Hin|exact B0].
  - apply (ADD n (firstn r d)); [exact N|exact P|exists (skipn r d); symmetry; apply firstn_skipn|exact E1].
  - apply (ADD n d); [exact N|exact P|exists []; symmetry; apply app_nil_r|exact E1].
Qed.
Print Assumptions C220_only.

(* What is noted in the log is true: the named file holds that many bytes, all those of an attachment of that sender. *)
Definition true_note (s : saved) (l : list (bytes * bytes)) (x : Z * bytes * bytes) : Prop :=
  exists data, In (snd (fst x), data) l /\ fst (fst x) = zlen data /\ content (sa_files s) (snd x) = Some data.
Theorem C220_noted : forall su f ms cur s, exists new,
  sa_log (received su f ms cur s) = sa_log s ++ new /\
  Forall (true_note (received su f ms cur s) (attached ms)) new.
Proof.
  intros su f ms cur s. rewrite all_messages.
  destruct (fl_echo f); [exists []; rewrite app_nil_r; split; [reflexivity|constructor]|].
  assert (KEEP : forall l s name b, content (sa_files s) name = Some b -> content (sa_files (each su s l)) name = Some b).
  { clear. induction l as [|[src d] l IH]; intros s name b H; [exact H|]. cbn [each fold_left fst snd]. apply IH.
    destruct (handle_step su src d s) as [E _|n r _ _ _ E _|n _ _ E _]; rewrite E; [exact H|rewrite content_app, H; reflexivity..]. }
  revert s. induction (attached ms) as [|[src d] l IH]; intros s.
  { exists []. cbn [each fold_left]. rewrite app_nil_r. split; [reflexivity|constructor]. }
  cbn [each fold_left fst snd]. fold (each su (handleAttachment su src d s) l).
  destruct (IH (handleAttachment su src d s)) as (new & L & F).
  assert (MORE : Forall (true_note (each su (handleAttachment su src d s) l) ((src, d) :: l)) new).
  { eapply Forall_impl; [|exact F]. intros x (data & Hin & R). exists data. split; [right; exact Hin|exact R]. }
  destruct (handle_step su src d s) as [_ E|n r _ _ _ _ E|n N P E1 E]; rewrite L, E.
  - exists new. split; [reflexivity|exact MORE].
  - exists new. split; [reflexivity|exact MORE].
  - exists ((zlen d, src, n) :: new). split; [rewrite <- app_assoc; reflexivity|]. constructor; [|exact MORE].
    exists d. cbn [fst snd]. split; [left; reflexivity|]. split; [reflexivity|]. apply KEEP. rewrite E1, content_app, N.
    cbn [content]. rewrite beq_refl. reflexivity.
Qed.
Print Assumptions C220_noted.

(* names do not repeat within so many attempts *)
Definition no_repeats (su : surroundings) : Prop :=
  forall i j, Z.of_nat i < Z.of_nat j < Z.of_nat i + 10000 -> su_end su i <> su_end su j.
Lemma attempts_10000 : Z.of_nat attempts_max = 10000.
Proof. unfold attempts_max. apply Z2Nat.id. lia. Qed.
Definition all_works (su : surroundings) : Prop := forall k, su_make su k = true /\ su_room su k = None.

Lemma window_nodup su n k : no_repeats su -> (k <= attempts_max)%nat -> NoDup (map (fun i => att_prefix ++ su_end su i) (seq n k)).
Proof.
  intros H. revert n. induction k as [|k IH]; intros n L; [constructor|]. cbn [seq map]. constructor; [|apply IH; lia].
  intros Hin. apply in_map_iff in Hin. destruct Hin as (j & E & Hj). apply in_seq in Hj. apply app_inv_head in E.
  apply (H n j); [pose proof attempts_10000; lia|symmetry; exact E].
Qed.
Lemma temp_fails left su : forall n fs n', tempName left su n fs = (None, n') ->
  forall i, (n <= i < n + left)%nat -> In (att_prefix ++ su_end su i) (map fst fs).
Proof.
  induction left as [|k IH]; intros n fs n'; cbn [tempName]; [lia|].
  destruct (content fs (att_prefix ++ su_end su n)) as [b|] eqn:E; [|discriminate]. intros T i L.
  destruct (Nat.eq_dec i n) as [->|NE]; [|apply (IH _ _ _ T); lia].
  destruct (in_dec (list_eq_dec Z.eq_dec) (att_prefix ++ su_end su n) (map fst fs)) as [Hin|Hn]; [exact Hin|].
  apply content_in in Hn. rewrite Hn in E. discriminate E.
Qed.
Lemma temp_found su n fs : no_repeats su -> (List.length fs < attempts_max)%nat -> exists name n', tempName attempts_max su n fs = (Some name, n').
Proof.
  intros H L. destruct (tempName attempts_max su n fs) as [[name|] n'] eqn:T; [exists name, n'; reflexivity|].
  pose proof (temp_fails _ _ _ _ _ T) as F.
  assert (D := window_nodup su n attempts_max H (le_n _)).
  assert (I' : incl (map (fun i => att_prefix ++ su_end su i) (seq n attempts_max)) (map fst fs)).
  { intros x Hin. apply in_map_iff in Hin. destruct Hin as (i & <- & Hi). apply in_seq in Hi. apply F. lia. }
  apply NoDup_incl_length in I'; [|exact D]. rewrite !map_length, seq_length in I'. lia.
Qed.

(* Every attachment is kept whole, in a new file of its own, and noted with its sender, if files can be made and written,
   there are not too many of them and the program does not answer by itself. *)
Theorem C220_kept_partial : forall su f ms cur s, fl_echo f = false -> all_works su -> no_repeats su ->
  Z.of_nat (List.length (sa_files s) + List.length (attached ms)) <= 10000 ->
  exists names, List.length names = List.length (attached ms) /\ NoDup names /\
    Forall (fun n => content (sa_files s) n = None /\ begins own_name n) names /\
    sa_files (received su f ms cur s) = sa_files s ++ combine names (map snd (attached ms)) /\
    sa_log (received su f ms cur s) = sa_log s ++ map (fun x => (zlen (snd (snd x)), fst (snd x), fst x)) (combine names (attached ms)).
Proof.
  intros su f ms cur s EC W NR. rewrite all_messages, EC. clear EC. revert s. induction (attached ms) as [|[src d] l IH]; intros s L.
  { exists []. cbn [each fold_left combine map]. rewrite !app_nil_r. repeat split; constructor. }
  cbn [List.length] in L. cbn [each fold_left fst snd]. fold (each su (handleAttachment su src d s) l).
  destruct (temp_found su (sa_tried s) (sa_files s) NR) as (name & n' & T); [pose proof attempts_10000; lia|].
  destruct (W (sa_asked s)) as (W1 & W2).
  assert (H : handleAttachment su src d s = mkSaved (sa_files s ++ [(name, d)]) n' (S (sa_asked s)) (sa_log s ++ [(zlen d, src, name)])).
  { unfold handleAttachment. rewrite W1, T, W2. reflexivity. }
  destruct (IH (handleAttachment su src d s)) as (names & N1 & N2 & N3 & N4 & N5).
  { rewrite H. cbn [sa_files]. rewrite app_length. cbn [List.length]. lia. }
  apply temp_new in T. destruct T as (T1 & T2). rewrite H in N3. cbn [sa_files] in N3.
  exists (name :: names). split; [cbn [List.length]; lia|]. split.
  { constructor; [|exact N2]. intros Hin. rewrite Forall_forall in N3. destruct (N3 _ Hin) as (N3' & _).
    rewrite content_app, T1 in N3'. cbn [content] in N3'. rewrite beq_refl in N3'. discriminate N3'. }
  split.
  { constructor; [split; assumption|]. eapply Forall_impl; [|exact N3]. intros a (A1 & A2). split; [|exact A2].
    rewrite content_app in A1. destruct (content (sa_files s) a); [discriminate A1|reflexivity]. }
  rewrite N4, N5, H. cbn [sa_files sa_log combine map fst snd]. rewrite <- !app_assoc. split; reflexivity.
Qed.
Print Assumptions C220_kept_partial.

(* A program that echoes throws attachments away. *)
Theorem C220_echo : forall su f ms cur s, fl_echo f = true -> received su f ms cur s = s.
Proof. intros su f ms cur s E. rewrite all_messages, E. reflexivity. Qed.
Print Assumptions C220_echo.

(* A file that stands for an attachment may hold only its beginning. *)
Definition whole_or_none (s s' : saved) (ms : list cmsg) : Prop :=
  forall name b, content (sa_files s) name = None -> content (sa_files s') name = Some b -> In b (map snd (attached ms)).
Definition ex_sur (room : option nat) : surroundings := mkSur (fun n => [Z.of_nat n]) (fun _ => true) (fun _ => room).
Definition ex_pic_msg : cmsg := mkCmsg [43; 49] None None [] [[1; 2; 3]; [4; 5]].
Definition ex_flags (echo : bool) : flags := mkFlags echo [] false false.
Definition ex_start : saved := mkSaved [(att_prefix ++ [0], [9])] 0 0 [].
Theorem C220_cut_refuted : exists su f ms cur s, fl_echo f = false /\ no_repeats su /\ ~ whole_or_none s (received su f ms cur s) ms.
Proof.
  exists (ex_sur (Some 1%nat)), (ex_flags false), [ex_pic_msg], [], ex_start. split; [reflexivity|]. split.
  { intros i j L. cbn [ex_sur su_end]. intros E. injection E as E. apply Nat2Z.inj in E. lia. }
  intros H. specialize (H (att_prefix ++ [1]) [1] eq_refl).
  assert (E : content (sa_files (received (ex_sur (Some 1%nat)) (ex_flags false) [ex_pic_msg] [] ex_start)) (att_prefix ++ [1]) = Some [1])
    by (vm_compute; reflexivity).
  specialize (H E). vm_compute in H. destruct H as [H|[H|[]]]; discriminate H.
Qed.
Print Assumptions C220_cut_refuted.
Theorem C220_all_kept_refuted : exists su f ms cur s, all_works su /\ no_repeats su /\ attached ms <> [] /\
  sa_files (received su f ms cur s) = sa_files s.
Proof.
  exists (ex_sur None), (ex_flags true), [ex_pic_msg], [], ex_start. split; [intros k; split; reflexivity|]. split.
  { intros i j L. cbn [ex_sur su_end]. intros E. injection E as E. apply Nat2Z.inj in E. lia. }
  split; [discriminate|]. rewrite C220_echo by reflexivity. reflexivity.
Qed.
Print Assumptions C220_all_kept_refuted.

Example C220_example : let s := received (ex_sur None) (ex_flags false) [ex_pic_msg; ex_pic_msg] [] ex_start in
  (sa_files s, map (fun x => fst (fst x)) (sa_log s)) =
  ([(att_prefix ++ [0], [9]); (att_prefix ++ [1], [1; 2; 3]); (att_prefix ++ [2], [4; 5]); (att_prefix ++ [3], [1; 2; 3]); (att_prefix ++ [4], [4; 5])],
   [3; 2; 3; 2]).
Proof. vm_compute. reflexivity. Qed.
