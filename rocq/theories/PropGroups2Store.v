(* Following groups of the second version: C96 a message of a group does not stop the client, C97 a change that is
   presented was signed by the server, C98 a change is presented with the message that carried it, C99 a message is
   presented in a group only if its sender is a member, C100 stored groups are found, C101 joining succeeds only if
   the server agrees, C102 an update that fails loses nothing, C103 an incomplete answer is refused, C104 every
   member the server lists is known, C105 the join status is true, C106 the title is presented as it was set, C107 a
   message goes to the members. *)
From Coq Require Import ZArith List Lia Bool.
From Verif Require Import Bytes Res Crypto Encodings PropEncodings Content Groups2Store.
Import ListNotations.
Open Scope Z_scope.

Lemma find_put2 k k' g t : find2 k (put2 k' g t) = if beq k k' then Some g else find2 k t.
Proof.
  induction t as [|[x d] r IH]; cbn [put2 find2]; [reflexivity|].
  destruct (beq k' x) eqn:E.
  - apply beq_eq in E. subst x. cbn [find2]. destruct (beq k k'); reflexivity.
  - cbn [find2]. rewrite IH. destruct (beq k x) eqn:F; [|reflexivity]. apply beq_eq in F. subst x. rewrite beq_sym, E. reflexivity.
Qed.
Lemma put2_not_nil k g t : put2 k g t <> [].
Proof. destruct t as [|[x d] r]; cbn [put2]; [discriminate|]. destruct (beq k x); discriminate. Qed.
Lemma save_map w k s : s2_map (saveGroupV2 w k s) = s2_map s.
Proof. unfold saveGroupV2. destruct (find2 k (s2_map s)); [destruct w|]; reflexivity. Qed.
Lemma save_files w k s k' : find2 k' (s2_files (saveGroupV2 w k s)) =
  if beq k' k && w then (match find2 k (s2_map s) with Some g => Some g | None => find2 k' (s2_files s) end) else find2 k' (s2_files s).
Proof.
  unfold saveGroupV2. destruct (find2 k (s2_map s)) as [g|]; [destruct w; cbn [s2_files]|].
  - rewrite find_put2. rewrite andb_true_r. destruct (beq k' k); reflexivity.
  - rewrite andb_false_r. reflexivity.
  - destruct (beq k' k && w); reflexivity.
Qed.

Lemma check_key z me g : g2_key (CheckJoinStatus z me g) = g2_key g.
Proof. unfold CheckJoinStatus. destruct (g2_dec g); [reflexivity|]. destruct (listed _ _ _ _); reflexivity. Qed.
Lemma check_dec z me g : g2_dec (CheckJoinStatus z me g) = g2_dec g.
Proof. unfold CheckJoinStatus. destruct (g2_dec g) eqn:E; [exact E|]. destruct (listed _ _ _ _); [cbn; exact E|exact E]. Qed.
Lemma check_ctx z me g : g2_ctx (CheckJoinStatus z me g) = g2_ctx g.
Proof. unfold CheckJoinStatus. destruct (g2_dec g); [reflexivity|]. destruct (listed _ _ _ _); reflexivity. Qed.
Lemma check_act z me g : g2_act (CheckJoinStatus z me g) = g2_act g.
Proof. unfold CheckJoinStatus. destruct (g2_dec g); [reflexivity|]. destruct (listed _ _ _ _); reflexivity. Qed.
Lemma dgfs_key z me e g : g2_key (fst (decryptGroupFromServer z me e g)) = g2_key g.
Proof. cbn [decryptGroupFromServer fst]. rewrite check_key. reflexivity. Qed.
Lemma dgfs_dec z me e g : g2_dec (fst (decryptGroupFromServer z me e g)) = decryptGroup z (g2_key g) e.
Proof. cbn [decryptGroupFromServer fst]. rewrite check_dec. reflexivity. Qed.
Lemma dgfs_ctx z me e g : g2_ctx (fst (decryptGroupFromServer z me e g)) = e.
Proof. cbn [decryptGroupFromServer fst]. rewrite check_ctx. reflexivity. Qed.
Lemma dgfs_act z me e g : g2_act (fst (decryptGroupFromServer z me e g)) = g2_act g.
Proof. cbn [decryptGroupFromServer fst]. rewrite check_act. reflexivity. Qed.

(* what an update does to the map *)
Lemma update_known z me a w key s g : find2 (hex key) (s2_map s) = Some g ->
  forall k, find2 k (s2_map (fst (UpdateGroupFromServer z me a w key s))) =
    if beq k (hex key) then Some (match query z (g2_key g) a with Ok e => fst (decryptGroupFromServer z me e g) | _ => g end)
    else find2 k (s2_map s).
Proof.
  intros F k. unfold UpdateGroupFromServer. rewrite F.
  assert (Q : find2 k (s2_map s) = if beq k (hex key) then Some g else find2 k (s2_map s)).
  { destruct (beq k (hex key)) eqn:E; [|reflexivity]. apply beq_eq in E. subst k. exact F. }
  destruct (query z (g2_key g) a) as [e|e|]; [|exact Q|exact Q].
  destruct (decryptGroupFromServer z me e g) as [g' ok]. cbn [fst].
  destruct ok; cbn [fst]; [rewrite save_map|]; cbn [s2_map]; apply find_put2.
Qed.

(* ---- histories of one client: the calls of the interface and restarts ---- *)
Inductive op2 :=
| OpMessage (src : bytes) (c : gctx2) (a1 a2 : answer2) (w0 w1 w2 : bool)
| OpMembers (a : answer2) (w : bool) (k : bytes)
| OpJoin (a1 a2 : answer2) (w1 w2 : bool) (pres : res bytes) (patch : res unit) (k : bytes)
| OpSend (a : answer2) (w : bool) (out : nat -> res Z) (k : bytes)
| OpRestart.
Definition step2 (z : zk) (me : bytes) (o : op2) (s : st2) : st2 :=
  match o with
  | OpMessage src c a1 a2 w0 w1 w2 => fst (HandleGroupsV2 z me src c a1 a2 w0 w1 w2 s)
  | OpMembers a w k => fst (GetMembers z me a w k s)
  | OpJoin a1 a2 w1 w2 pres patch k => fst (fst (JoinGroup z me a1 a2 w1 w2 pres patch k s))
  | OpSend a w out k => fst (fst (sendGroupV2Helper z me a w out k s))
  | OpRestart => restart2 s
  end.
Definition run2 (z : zk) (me : bytes) (ops : list op2) : st2 := fold_left (fun s o => step2 z me o s) ops (mkSt2 [] []).

(* ---- invariants that speak of one entry ---- *)
Section Entries.
Variables (z : zk) (me : bytes) (P : bytes -> gr2 -> Prop).
Definition entries (s : st2) : Prop := forall k g, find2 k (s2_map s) = Some g \/ find2 k (s2_files s) = Some g -> P k g.
Hypothesis Pnew : forall key rev, P (hex key) (g2_new key rev).
Hypothesis Pupd : forall k g e, P k g -> P k (fst (decryptGroupFromServer z me e g)).
Hypothesis Pchk : forall k g, P k g -> P k (CheckJoinStatus z me g).
Hypothesis Pjoin : forall k g j, P k g -> P k (set_join j g).
Hypothesis Pact : forall k g acts sig, P k g -> acts = [] \/ zk_verify z acts sig = true ->
  P k (set_act (decryptActions z (g2_key g) (pb_actions z acts)) g).

Lemma entries_put k g s : entries s -> P k g -> entries (mkSt2 (put2 k g (s2_map s)) (s2_files s)).
Proof.
  intros E H k' g' [F|F]; cbn [s2_map s2_files] in F; [|apply E; now right].
  rewrite find_put2 in F. destruct (beq k' k) eqn:B; [|apply E; now left]. apply beq_eq in B. subst k'. congruence.
Qed.
Lemma entries_save w k s : entries s -> entries (saveGroupV2 w k s).
Proof.
  intros E k' g' [F|F].
  - rewrite save_map in F. apply E. now left.
  - rewrite save_files in F. destruct (beq k' k && w) eqn:B; [|apply E; now right].
    destruct (find2 k (s2_map s)) eqn:G; [|apply E; now right]. apply andb_true_iff in B. destruct B as [B _].
    apply beq_eq in B. subst k'. apply E. left. congruence.
Qed.
Lemma entries_load k s : entries s -> entries (fst (loadGroupV2 k s)) /\ (forall g, snd (loadGroupV2 k s) = Some g -> P k g).
Proof.
  intros E. unfold loadGroupV2. destruct (find2 k (s2_files s)) as [g|] eqn:F; cbn [fst snd].
  - split; [apply entries_put; [exact E|apply E; now right]|]. intros g' [= <-]. apply E. now right.
  - split; [exact E|discriminate].
Qed.
Lemma entries_find k s : entries s -> entries (fst (FindGroup k s)) /\ (forall g, snd (FindGroup k s) = Some g -> P k g).
Proof.
  intros E. unfold FindGroup. destruct (s2_map s) as [|x m] eqn:M; [now apply entries_load|].
  cbn [fst snd]. split; [exact E|]. intros g F. apply E. left. rewrite M. exact F.
Qed.
Lemma entries_update a w key s : entries s -> entries (fst (UpdateGroupFromServer z me a w key s)).
Proof.
  intros E. unfold UpdateGroupFromServer.
  set (g := match find2 (hex key) (s2_map s) with Some g => g | None => g2_new key 0 end).
  assert (Hg : P (hex key) g).
  { unfold g. destruct (find2 (hex key) (s2_map s)) eqn:F; [apply E; now left|apply Pnew]. }
  destruct (query z (g2_key g) a) as [e|e|]; [|exact E|exact E].
  pose proof (Pupd _ _ e Hg) as Hu. destruct (decryptGroupFromServer z me e g) as [g' ok]. cbn [fst] in Hu.
  destruct ok; cbn [fst].
  - apply entries_save. now apply entries_put.
  - destruct (find2 (hex key) (s2_map s)); [now apply entries_put|exact E].
Qed.
Lemma update_same_key a w key s k g g' : entries s ->
  find2 k (s2_map s) = Some g -> find2 k (s2_map (fst (UpdateGroupFromServer z me a w key s))) = Some g' -> g2_key g' = g2_key g.
Proof.
  intros E F F'. unfold UpdateGroupFromServer in F'.
  set (h := match find2 (hex key) (s2_map s) with Some g => g | None => g2_new key 0 end) in F'.
  destruct (query z (g2_key h) a) as [e|e|]; [|cbn [fst] in F'; congruence|cbn [fst] in F'; congruence].
  pose proof (dgfs_key z me e h) as K. destruct (decryptGroupFromServer z me e h) as [h' ok]. cbn [fst] in K.
  assert (X : find2 k (s2_map (mkSt2 (put2 (hex key) h' (s2_map s)) (s2_files s))) = Some g' -> g2_key g' = g2_key g).
  { cbn [s2_map]. rewrite find_put2. destruct (beq k (hex key)) eqn:B; [|congruence]. apply beq_eq in B. subst k.
    unfold h in K. rewrite F in K. congruence. }
  destruct ok; cbn [fst] in F'; [rewrite save_map in F'; exact (X F')|].
  destruct (find2 (hex key) (s2_map s)); [exact (X F')|congruence].
Qed.
Lemma entries_message src c a1 a2 w0 w1 w2 s : entries s ->
  entries (fst (HandleGroupsV2 z me src c a1 a2 w0 w1 w2 s)) /\
  (forall g, snd (HandleGroupsV2 z me src c a1 a2 w0 w1 w2 s) = Ok g -> P (hex (orempty (gc_master c))) g).
Proof.
  intros E. unfold HandleGroupsV2. set (key := orempty (gc_master c)). set (k := hex key).
  set (rev := match gc_rev c with Some r => r | None => 0 end).
  destruct (entries_load k s E) as [E1 L1]. destruct (loadGroupV2 k s) as [s1 og]. cbn [fst snd] in E1, L1.
  set (s2 := match og with None => _ | Some g => _ end).
  assert (E2 : entries s2).
  { unfold s2. destruct og as [g|].
    - destruct (is_nil _); [now apply entries_update|exact E1].
    - apply entries_update. apply entries_save. apply entries_put; [exact E1|apply Pnew]. }
  clearbody s2. destruct (find2 k (s2_map s2)) as [g|] eqn:F; [|split; [exact E2|discriminate]].
  assert (Hg : P k g) by (apply E2; now left).
  destruct (is_nil (orempty (gc_change c))); cbn [negb].
  - destruct (g2_dec g) as [d|]; [|split; [exact E2|discriminate]].
    destruct (dg_rev d =? rev); [split; [exact E2|]; cbn [snd]; intros g' [= <-]; exact Hg|].
    pose proof (entries_update a2 w2 (g2_key g) s2 E2) as E3.
    destruct (find2 k (s2_map (fst (UpdateGroupFromServer z me a2 w2 (g2_key g) s2)))) as [g'|] eqn:F'; cbn [fst snd].
    + split; [exact E3|]. intros g'' [= <-]. apply E3. now left.
    + split; [exact E3|discriminate].
  - destruct (pb_change z (orempty (gc_change c))) as [acts sig].
    destruct (negb (is_nil acts) && negb (zk_verify z acts sig)) eqn:V; [split; [exact E2|discriminate]|].
    pose proof (entries_update a2 w2 (g2_key g) s2 E2) as E3.
    pose proof (fun g' => update_same_key a2 w2 (g2_key g) s2 k g g' E2 F) as K.
    destruct (find2 k (s2_map (fst (UpdateGroupFromServer z me a2 w2 (g2_key g) s2)))) as [g'|] eqn:F'; cbn [fst snd].
    + assert (Hp : P k (set_act (decryptActions z (g2_key g) (pb_actions z acts)) g')).
      { rewrite <- (K g' eq_refl). apply (Pact k g' acts sig); [apply E3; now left|].
        destruct acts as [|x l]; [now left|]. right. cbn [is_nil negb andb] in V. destruct (zk_verify z (x :: l) sig); [reflexivity|discriminate]. }
      split; [now apply entries_put|]. intros g'' [= <-]. exact Hp.
    + split; [exact E3|discriminate].
Qed.
Lemma entries_step o s : entries s -> entries (step2 z me o s).
Proof.
  intros E. destruct o as [src c a1 a2 w0 w1 w2|a w k|a1 a2 w1 w2 pres patch k|a w out k|]; cbn [step2].
  - now apply entries_message.
  - unfold GetMembers. destruct (entries_find k s E) as [E1 L1]. destruct (FindGroup k s) as [s1 [g|]]; [|exact E1].
    cbn [fst] in E1. pose proof (entries_update a w (g2_key g) s1 E1) as E2. destruct (UpdateGroupFromServer _ _ _ _ _ _). exact E2.
  - unfold JoinGroup. destruct (entries_find k s E) as [E1 L1]. destruct (FindGroup k s) as [s1 [g|]]; [|exact E1].
    cbn [fst] in E1. pose proof (entries_update a1 w1 (g2_key g) s1 E1) as E2.
    destruct (UpdateGroupFromServer z me a1 w1 (g2_key g) s1) as [s2 [u|e|]]; try exact E2. cbn [fst] in E2.
    destruct (find2 k (s2_map s2)) as [g1|] eqn:F; [|exact E2].
    destruct (invited_as _ _ _ _); try exact E2. destruct pres; try exact E2. destruct (g2_dec g1); [|exact E2].
    assert (E3 : entries (mkSt2 (put2 k (set_join J_MEMBER g1) (s2_map s2)) (s2_files s2))).
    { apply entries_put; [exact E2|]. apply Pjoin. apply E2. now left. }
    pose proof (entries_update a2 w2 (g2_key g1) _ E3) as E4.
    destruct (find2 k (s2_map (fst (UpdateGroupFromServer z me a2 w2 (g2_key g1) _)))); exact E4.
  - unfold sendGroupV2Helper. destruct (entries_find k s E) as [E1 L1]. destruct (FindGroup k s) as [s1 [g|]]; [|exact E1].
    cbn [fst snd] in E1, L1. assert (E2 : entries (mkSt2 (put2 k (CheckJoinStatus z me g) (s2_map s1)) (s2_files s1))).
    { apply entries_put; [exact E1|]. apply Pchk. now apply L1. }
    destruct (negb _); [exact E2|].
    set (x := match g2_dec (CheckJoinStatus z me g) with Some _ => _ | None => _ end).
    assert (E3 : entries (fst x)) by (unfold x; destruct (g2_dec _); [exact E2|now apply entries_update]).
    destruct x as [s3 [u|e|]]; try exact E3. cbn [fst] in E3.
    destruct (find2 k (s2_map s3)) as [g'|]; [|exact E3]. destruct (g2_dec g') as [d|]; [|exact E3].
    destruct (dg_members d); [exact E3|]. destruct (send2 _ _ _ _). exact E3.
  - intros k g [F|F]; cbn [restart2 s2_map s2_files find2] in F; [discriminate|]. apply E. now right.
Qed.
Lemma entries_run ops : entries (run2 z me ops).
Proof.
  unfold run2. assert (E : entries (mkSt2 [] [])) by (intros k g [F|F]; discriminate).
  revert E. generalize (mkSt2 [] []). induction ops as [|o ops IH]; intros s E; cbn [fold_left]; [exact E|].
  apply IH. now apply entries_step.
Qed.
End Entries.

(* every group is kept under the text of its own master key *)
Definition keyed (s : st2) : Prop := entries (fun k g => hex (g2_key g) = k) s.
Lemma keyed_run z me ops : keyed (run2 z me ops).
Proof.
  apply entries_run; intros; try reflexivity; try assumption.
  - rewrite dgfs_key. assumption.
  - rewrite check_key. assumption.
Qed.

(* ---- a concrete library and group for the examples ---- *)
Fixpoint strip (p b : bytes) : option bytes :=
  match p, b with [], _ => Some b | x :: p, y :: b => if x =? y then strip p b else None | _ :: _, [] => None end.
Definition printable (b : Z) : bool := (32 <=? b) && (b <=? 126).
Definition toyzk : zk := mkZk
  (fun key => Nat.eqb (length key) 4)
  strip
  (fun key c u => strip key c)
  strip
  (fun p => match p with 1 :: r => Some (firstn 20 r, skipn 20 r) | _ => None end)
  (fun acts sig => beq sig (rev acts))
  (fun c => (skipn 2 c, firstn 2 c))
  (fun b => mkEa (hd 0 b) [] (match tl b with [] => [] | t => [t] end) [] [])
  (filter printable).
(* what the laws of the libraries are: no bytes are the message without actions; text in which every byte is a
   character loses those that are not printable *)
Record zk_ok (z : zk) : Prop := {
  pb_nothing : pb_actions z [] = mkEa 0 [] [] [] [];
  show_ascii : forall t, Forall (fun b => 0 <= b < 128) t -> uc_show z t = filter printable t }.
Lemma toyzk_ok : zk_ok toyzk.
Proof. constructor; [reflexivity|]. intros t _. reflexivity. Qed.

Definition xkey : bytes := [7; 7; 7; 9].
Definition alice : bytes := [161;162;163;164;165;166;64;168;129;170;171;172;173;174;175;176].
Definition bob : bytes := [177;178;179;180;181;182;64;184;129;186;187;188;189;190;191;192].
Definition carol : bytes := [193;194;195;196;197;198;64;200;129;202;203;204;205;206;207;208].
Definition me_text : bytes := Eval vm_compute in HexToUUID (hex alice).
Definition plain (u : bytes) : emember := mkEm (xkey ++ u) 1 (xkey ++ [5]) [] 0.
Definition xtitle : bytes := xkey ++ [10; 3; 72; 101; 121].
Definition xgroup : egroup := mkEg xtitle [] (Some (2, 2, 4)) 1 [plain alice; plain bob] [].
Definition xctx (rev : Z) : gctx2 := mkGctx2 (Some xkey) (Some rev) None.
Definition xk : bytes := Eval vm_compute in hex xkey.
(* a signed change saying that carol is removed, in the second revision *)
Definition xacts : bytes := 2 :: xkey ++ carol.

(* ================= C96 ================= *)
Definition readable (z : zk) (key : bytes) (e : egroup) : Prop := zk_params z key = true /\ zk_blob z key (eg_title e) <> None.
(* when there is nothing to compare the revision with *)
Definition nothing_known (z : zk) (key : bytes) (a : answer2) (s : st2) : Prop :=
  match find2 (hex key) (s2_files s) with
  | None => ~ exists e b, a = Answered e b /\ readable z key e
  | Some g =>
      (g2_dec g = None /\ (eg_title (g2_ctx g) <> [] \/ zk_params z key = false \/ exists e, a = Refused e)) \/
      (eg_title (g2_ctx g) = [] /\ zk_params z key = true /\ exists e b, a = Answered e b /\ zk_blob z key (eg_title e) = None)
  end.
Lemma decryptGroup_none z key e : decryptGroup z key e = None <-> ~ readable z key e.
Proof.
  unfold decryptGroup, readable. destruct (zk_params z key); cbn [negb].
  - destruct (zk_blob z key (eg_title e)); split; intros H; try discriminate; try reflexivity.
    + exfalso. apply H. split; [reflexivity|discriminate].
    + intros [_ X]. now apply X.
  - split; [intros _ [X _]; discriminate|reflexivity].
Qed.

(* the state of the group when its change or its revision is looked at *)
Lemma message_start z me a1 w0 w1 key rev s (s1 : st2) og :
  (forall g, find2 (hex key) (s2_files s) = Some g -> g2_key g = key) ->
  loadGroupV2 (hex key) s = (s1, og) ->
  let s2 := match og with
            | None => fst (UpdateGroupFromServer z me a1 w1 key (saveGroupV2 w0 (hex key) (mkSt2 (put2 (hex key) (g2_new key rev) (s2_map s1)) (s2_files s1))))
            | Some g => if is_nil (eg_title (g2_ctx g)) then fst (UpdateGroupFromServer z me a1 w1 (g2_key g) s1) else s1
            end in
  exists g, find2 (hex key) (s2_map s2) = Some g /\ g2_key g = key /\ (g2_dec g = None <-> nothing_known z key a1 s).
Proof.
  intros Hk L s2. unfold loadGroupV2 in L. unfold nothing_known.
  destruct (find2 (hex key) (s2_files s)) as [g|] eqn:F.
  - injection L as <- <-. specialize (Hk g eq_refl). unfold s2.
    assert (M : find2 (hex key) (s2_map (mkSt2 (put2 (hex key) g (s2_map s)) (s2_files s))) = Some g)
      by (cbn [s2_map]; rewrite find_put2, beq_refl; reflexivity).
    destruct (eg_title (g2_ctx g)) as [|t0 t] eqn:T; cbn [is_nil].
    + rewrite Hk. rewrite (update_known z me a1 w1 key _ g M), beq_refl.
      eexists. split; [reflexivity|]. rewrite Hk. unfold query. destruct (zk_params z key) eqn:Z; cbn [negb].
      * destruct a1 as [e|e b].
        -- split; [exact Hk|]. split.
           ++ intros D. left. split; [exact D|]. right. right. now exists e.
           ++ intros [[D _]|(_ & _ & e' & b & X & _)]; [exact D|discriminate].
        -- rewrite dgfs_key. split; [exact Hk|]. rewrite dgfs_dec, Hk. unfold decryptGroup. rewrite Z. cbn [negb].
           destruct (zk_blob z key (eg_title e)) eqn:B; split; try discriminate; try reflexivity.
           ++ intros [[_ [X|[X|[e' X]]]]|(_ & _ & e' & b' & [= <- <-] & X)]; try discriminate; congruence.
           ++ intros _. right. split; [reflexivity|]. split; [reflexivity|]. now exists e, b.
      * split; [exact Hk|]. split; [intros D; left; split; [exact D|]; right; left; reflexivity|].
        intros [[D _]|(_ & X & _)]; [exact D|discriminate].
    + exists g. split; [exact M|]. split; [exact Hk|]. split.
      * intros D. left. split; [exact D|]. left. discriminate.
      * intros [[D _]|(X & _)]; [exact D|discriminate].
  - injection L as <- <-. unfold s2.
    set (n := saveGroupV2 w0 (hex key) _).
    assert (M : find2 (hex key) (s2_map n) = Some (g2_new key rev)).
    { unfold n. rewrite save_map. cbn [s2_map]. rewrite find_put2, beq_refl. reflexivity. }
    rewrite (update_known z me a1 w1 key n _ M), beq_refl. eexists. split; [reflexivity|].
    unfold query. cbn [g2_new g2_key]. destruct (zk_params z key) eqn:Z; cbn [negb].
    + destruct a1 as [e|e b].
      * split; [reflexivity|]. split; [|reflexivity]. intros _ (e' & b & X & _). discriminate.
      * rewrite dgfs_key. split; [reflexivity|]. rewrite dgfs_dec. cbn [g2_key]. rewrite decryptGroup_none. split.
        -- intros N (e' & b' & [= <- <-] & R). now apply N.
        -- intros N R. apply N. now exists e, b.
    + split; [reflexivity|]. split; [|reflexivity]. intros _ (e' & b & _ & R & _). congruence.
Qed.

(* A message of a group crashes the client exactly if it carries no change and nothing is known about the group *)
Theorem C96_when_it_crashes z me src c a1 a2 w0 w1 w2 s :
  let key := orempty (gc_master c) in
  (forall g, find2 (hex key) (s2_files s) = Some g -> g2_key g = key) ->
  (snd (HandleGroupsV2 z me src c a1 a2 w0 w1 w2 s) = Panic <-> orempty (gc_change c) = [] /\ nothing_known z key a1 s).
Proof.
  intros key Hk. unfold HandleGroupsV2. fold key.
  destruct (loadGroupV2 (hex key) s) as [s1 og] eqn:L.
  pose proof (message_start z me a1 w0 w1 key (match gc_rev c with Some r => r | None => 0 end) s s1 og Hk L) as M.
  cbn zeta in M. set (s2 := match og with None => _ | Some g => _ end) in *. clearbody s2.
  destruct M as (g & F & K & D). rewrite F.
  destruct (orempty (gc_change c)) as [|x l] eqn:CH; cbn [is_nil negb].
  - destruct (g2_dec g) as [d|] eqn:G.
    + assert (N : ~ nothing_known z key a1 s) by (intros N; apply D in N; discriminate).
      split; [|intros [_ X]; contradiction].
      destruct (dg_rev d =? _); cbn [snd]; [discriminate|]. rewrite K.
      assert (F2 : find2 (hex key) (s2_map (fst (UpdateGroupFromServer z me a2 w2 key s2))) =
                   Some (match query z (g2_key g) a2 with Ok e => fst (decryptGroupFromServer z me e g) | _ => g end)).
      { rewrite (update_known z me a2 w2 key s2 g F), beq_refl. reflexivity. }
      rewrite F2. discriminate.
    + cbn [snd]. split; [intros _; split; [reflexivity|now apply D]|reflexivity].
  - split; [|intros [X _]; discriminate].
    destruct (pb_change z (x :: l)) as [acts sig]. destruct (negb _ && negb _); [discriminate|]. rewrite K.
    rewrite (update_known z me a2 w2 key s2 g F), beq_refl. discriminate.
Qed.
(* every client's files meet the hypothesis when two keys with the same text are the same key *)
Theorem C96_reachable z me ops key g : wfb key ->
  find2 (hex key) (s2_files (run2 z me ops)) = Some g -> wfb (g2_key g) -> g2_key g = key.
Proof. intros W F Wg. pose proof (keyed_run z me ops (hex key) g (or_intror F)) as K. now apply hex_inj. Qed.
(* anyone who can send us a message can do it: the group need not exist *)
Theorem C96_group_message_crashes_refuted : exists z me src c a1 a2 w0 w1 w2,
  zk_ok z /\ snd (HandleGroupsV2 z me src c a1 a2 w0 w1 w2 (mkSt2 [] [])) = Panic.
Proof.
  exists toyzk, me_text, [43; 49], (xctx 0), (Refused (EServer 404)), (Refused (EServer 404)), true, true, true.
  split; [exact toyzk_ok|]. vm_compute. reflexivity.
Qed.
Example C96_ex : snd (HandleGroupsV2 toyzk me_text [43; 49] (xctx 1) (Answered xgroup true) (Refused EOther) true true true (mkSt2 [] []))
  <> Panic /\ nothing_known toyzk xkey (Refused EOther) (mkSt2 [] []).
Proof. split; [vm_compute; discriminate|]. intros (e & b & H & _). discriminate. Qed.
Print Assumptions C96_when_it_crashes.
Print Assumptions C96_reachable.
Print Assumptions C96_group_message_crashes_refuted.

(* ================= C97 ================= *)
Definition says_nothing : dchange := mkDc 0 [] [] [] [].
Definition signed (z : zk) (key : bytes) (d : dchange) : Prop :=
  exists acts sig, zk_verify z acts sig = true /\ decryptActions z key (pb_actions z acts) = Some d.
(* Whatever happened before, a change that a message presents says nothing or is the content of bytes the server signed *)
Theorem C97_changes_are_signed z me ops src c a1 a2 w0 w1 w2 g d : zk_ok z ->
  snd (HandleGroupsV2 z me src c a1 a2 w0 w1 w2 (run2 z me ops)) = Ok g -> g2_act g = Some d ->
  d = says_nothing \/ signed z (g2_key g) d.
Proof.
  intros Z H A. pose (P := fun (k : bytes) (g : gr2) => forall d, g2_act g = Some d -> d = says_nothing \/ signed z (g2_key g) d).
  assert (Pnew : forall key rev, P (hex key) (g2_new key rev)) by (intros key rev d' X; discriminate).
  assert (Pupd : forall k g e, P k g -> P k (fst (decryptGroupFromServer z me e g))).
  { intros k h e X d' Y. rewrite dgfs_act in Y. rewrite dgfs_key. now apply X. }
  assert (Pchk : forall k g, P k g -> P k (CheckJoinStatus z me g)).
  { intros k h X d' Y. rewrite check_act in Y. rewrite check_key. now apply X. }
  assert (Pjoin : forall k g j, P k g -> P k (set_join j g)) by (intros k h j X; exact X).
  assert (Pact : forall k g acts sig, P k g -> acts = [] \/ zk_verify z acts sig = true ->
            P k (set_act (decryptActions z (g2_key g) (pb_actions z acts)) g)).
  { intros k h acts sig X [->|V] d' Y; cbn [set_act g2_act g2_key] in *.
    - left. rewrite (pb_nothing z Z) in Y. unfold decryptActions in Y. destruct (zk_params z (g2_key h)); cbn in Y; [|discriminate].
      injection Y as <-. reflexivity.
    - right. exists acts, sig. auto. }
  pose proof (entries_run z me P Pnew Pupd Pchk Pjoin Pact ops) as E.
  destruct (entries_message z me P Pnew Pupd Pact src c a1 a2 w0 w1 w2 _ E) as [_ X]. exact (X g H d A).
Qed.
(* a change with a wrong signature is refused, and one with a right one is presented *)
Definition xchange (sig : bytes) : gctx2 := mkGctx2 (Some xkey) (Some 2) (Some (sig ++ [2] ++ firstn 1 (tl xacts))).
Definition toyzk1 : zk := mkZk (zk_params toyzk) (fun key c => Some (c ++ alice)) (zk_pkey toyzk) (zk_blob toyzk) (zk_pres toyzk)
  (zk_verify toyzk) (pb_change toyzk) (pb_actions toyzk) (uc_show toyzk).
Lemma toyzk1_ok : zk_ok toyzk1.
Proof. constructor; [reflexivity|]. intros t _. reflexivity. Qed.
Definition act_of (r : res gr2) : option dchange := match r with Ok g => g2_act g | _ => None end.
Example C97_ex :
  act_of (snd (HandleGroupsV2 toyzk1 me_text [] (xchange [7; 2]) (Answered xgroup true) (Answered xgroup true) true true true (mkSt2 [] [])))
    = Some (mkDc 2 [] [7 :: alice] [] []) /\
  snd (HandleGroupsV2 toyzk1 me_text [] (xchange [7; 3]) (Answered xgroup true) (Answered xgroup true) true true true (mkSt2 [] [])) = Err EOther.
Proof. split; vm_compute; reflexivity. Qed.
Print Assumptions C97_changes_are_signed.

(* ================= C98 ================= *)
(* A message that carries no change can present one that an earlier message carried: looking at the members in
   between has written it to the file *)
Definition msg_op (c : gctx2) : op2 := OpMessage [] c (Answered xgroup true) (Answered xgroup true) true true true.
Theorem C98_stale_change_refuted : exists z me ops src c a1 a2 g d,
  zk_ok z /\ gc_change c = None /\
  snd (HandleGroupsV2 z me src c a1 a2 true true true (run2 z me ops)) = Ok g /\ g2_act g = Some d /\ dc_del d <> [].
Proof.
  exists toyzk1, me_text, [msg_op (xchange [7; 2]); OpMembers (Answered xgroup true) true xk], [], (xctx 1), (Answered xgroup true), (Answered xgroup true).
  eexists. exists (mkDc 2 [] [7 :: alice] [] []). split; [exact toyzk1_ok|]. split; [reflexivity|].
  split; [vm_compute; reflexivity|]. split; [vm_compute; reflexivity|]. cbn [dc_del]. discriminate.
Qed.
(* and a change once presented is presented again whenever and from whomever it comes, whatever the group has become *)
Definition presented (z : zk) (key ch : bytes) : option (option dchange) :=
  let (acts, sig) := pb_change z ch in
  if negb (is_nil acts) && negb (zk_verify z acts sig) then None else Some (decryptActions z key (pb_actions z acts)).
Theorem C98_change_presented_again z me src c a1 a2 w0 w1 w2 s g src' c' a1' a2' w0' w1' w2' s' :
  let key := orempty (gc_master c) in
  (forall g, find2 (hex key) (s2_files s) = Some g -> g2_key g = key) ->
  (forall g, find2 (hex key) (s2_files s') = Some g -> g2_key g = key) ->
  orempty (gc_change c) <> [] -> gc_master c' = gc_master c -> gc_change c' = gc_change c ->
  snd (HandleGroupsV2 z me src c a1 a2 w0 w1 w2 s) = Ok g ->
  exists g', snd (HandleGroupsV2 z me src' c' a1' a2' w0' w1' w2' s') = Ok g' /\ g2_act g' = g2_act g.
Proof.
  intros key Hs Hs' N M C H.
  assert (A : forall src c a1 a2 w0 w1 w2 s, gc_master c = gc_master c' -> gc_change c = gc_change c' ->
     (forall g, find2 (hex key) (s2_files s) = Some g -> g2_key g = key) ->
     match presented z key (orempty (gc_change c')) with
     | None => snd (HandleGroupsV2 z me src c a1 a2 w0 w1 w2 s) = Err EOther
     | Some d => exists g, snd (HandleGroupsV2 z me src c a1 a2 w0 w1 w2 s) = Ok g /\ g2_act g = d
     end).
  { clear - N M C. intros src c0 a1 a2 w0 w1 w2 s M0 C0 Hk. assert (K0 : orempty (gc_master c0) = key) by (unfold key; now rewrite M0, M).
    unfold HandleGroupsV2. rewrite K0. destruct (loadGroupV2 (hex key) s) as [s1 og] eqn:L.
    pose proof (message_start z me a1 w0 w1 key (match gc_rev c0 with Some r => r | None => 0 end) s s1 og Hk L) as X.
    cbn zeta in X. set (s2 := match og with None => _ | Some g => _ end) in *. clearbody s2.
    destruct X as (g & F & K & _). rewrite F. rewrite C0. destruct (orempty (gc_change c')) as [|x l] eqn:CH.
    { exfalso. apply N. now rewrite <- C. }
    unfold presented. cbn [is_nil negb]. destruct (pb_change z (x :: l)) as [acts sig]. destruct (negb (is_nil acts) && negb (zk_verify z acts sig)); [reflexivity|].
    rewrite K. rewrite (update_known z me a2 w2 key s2 g F), beq_refl. cbn [snd]. eexists. split; reflexivity. }
  pose proof (A src c a1 a2 w0 w1 w2 s (eq_sym M) (eq_sym C) Hs) as B.
  pose proof (A src' c' a1' a2' w0' w1' w2' s' eq_refl eq_refl Hs') as B'.
  destruct (presented z key (orempty (gc_change c'))) as [d|]; [|congruence].
  destruct B as (h & Hh & Ah). destruct B' as (h' & Hh' & Ah'). exists h'. split; [exact Hh'|]. congruence.
Qed.
Example C98_ex : exists g, snd (HandleGroupsV2 toyzk1 me_text [] (xchange [7; 2]) (Answered xgroup true) (Answered xgroup true) true true true (mkSt2 [] [])) = Ok g.
Proof. eexists. vm_compute. reflexivity. Qed.
Print Assumptions C98_stale_change_refuted.
Print Assumptions C98_change_presented_again.

(* ================= C99 ================= *)
Theorem C99_sender_ignored z me src src' c a1 a2 w0 w1 w2 s :
  HandleGroupsV2 z me src c a1 a2 w0 w1 w2 s = HandleGroupsV2 z me src' c a1 a2 w0 w1 w2 s.
Proof. reflexivity. Qed.
Theorem C99_stranger_in_group_refuted : exists z me src c a1 a2 g d,
  zk_ok z /\ snd (HandleGroupsV2 z me src c a1 a2 true true true (mkSt2 [] [])) = Ok g /\ g2_dec g = Some d /\
  dg_members d <> [] /\ forall m, In m (dg_members d) -> HexToUUID (hex (dm_uuid m)) <> src.
Proof.
  exists toyzk, me_text, (HexToUUID (hex carol)), (xctx 1), (Answered xgroup true), (Answered xgroup true). eexists. eexists.
  split; [exact toyzk_ok|]. split; [vm_compute; reflexivity|]. split; [vm_compute; reflexivity|]. split; [cbn [dg_members]; discriminate|].
  cbn [dg_members In]. intros m [<-|[<-|[]]]; apply beq_neq; vm_compute; reflexivity.
Qed.
Print Assumptions C99_sender_ignored.
Print Assumptions C99_stranger_in_group_refuted.

(* ================= C100 ================= *)
Theorem C100_found_iff k s g : find2 k (s2_files s) = Some g ->
  (snd (FindGroup k s) <> None <-> s2_map s = [] \/ find2 k (s2_map s) <> None).
Proof.
  intros F. unfold FindGroup. destruct (s2_map s) as [|x m] eqn:M.
  - unfold loadGroupV2. rewrite F. cbn [snd]. split; [now left|discriminate].
  - cbn [snd]. split; [now right|]. intros [X|X]; [discriminate|exact X].
Qed.
Definition ykey : bytes := [7; 7; 8; 8].
Definition yctx : gctx2 := mkGctx2 (Some ykey) (Some 1) None.
Definition ygroup : egroup := mkEg (ykey ++ [10; 1; 89]) [] None 1 [mkEm (ykey ++ alice) 1 [] [] 0; mkEm (ykey ++ bob) 1 [] [] 0] [].
Definition yk : bytes := Eval vm_compute in hex ykey.
Definition ymsg : op2 := OpMessage [] yctx (Answered ygroup true) (Answered ygroup true) true true true.
(* after a restart and a message of one group, another one that is stored is not found and cannot be written to *)
Theorem C100_stored_group_not_found_refuted : exists z me ops k g,
  zk_ok z /\ let s := run2 z me ops in
  find2 k (s2_files s) = Some g /\ g2_join g = J_MEMBER /\ snd (FindGroup k s) = None /\
  forall a w out, snd (fst (sendGroupV2Helper z me a w out k s)) = Err ENotFound.
Proof.
  exists toyzk, me_text, [msg_op (xctx 1); ymsg; OpRestart; msg_op (xctx 1)], yk. eexists. split; [exact toyzk_ok|].
  cbn zeta. set (s := run2 _ _ _). vm_compute in s. split; [vm_compute; reflexivity|]. split; [reflexivity|].
  assert (N : FindGroup yk s = (s, None)) by (vm_compute; reflexivity).
  split; [now rewrite N|]. intros a w out. unfold sendGroupV2Helper. rewrite N. reflexivity.
Qed.
Example C100_ex : snd (FindGroup yk (run2 toyzk me_text [msg_op (xctx 1); ymsg; OpRestart])) <> None.
Proof. vm_compute. discriminate. Qed.
Print Assumptions C100_found_iff.
Print Assumptions C100_stored_group_not_found_refuted.

(* ================= C101 ================= *)
Definition invited_group : egroup := mkEg xtitle [] None 1 [plain bob] [mkEp (Some (plain alice)) (xkey ++ bob) 0].
Definition invited_run : list op2 := [OpMessage [] (xctx 1) (Answered invited_group true) (Refused EOther) true true true].
Theorem C101_answer_does_not_matter z me a1 a2 w1 w2 pres patch patch' k s :
  JoinGroup z me a1 a2 w1 w2 pres patch k s = JoinGroup z me a1 a2 w1 w2 pres patch' k s.
Proof. reflexivity. Qed.
(* the server refuses, the call succeeds and the group counts us as a member *)
Theorem C101_refused_join_succeeds_refuted : exists z me ops a1 a2 pres k g d,
  zk_ok z /\ snd (fst (JoinGroup z me a1 a2 true true pres (Err (EServer 403)) k (run2 z me ops))) = Ok g /\
  g2_join g = J_MEMBER /\ g2_dec g = Some d /\ forall m, In m (dg_members d) -> HexToUUID (hex (dm_uuid m)) <> me.
Proof.
  exists toyzk, me_text, invited_run, (Answered invited_group true), (Refused EOther), (Ok [1]), xk. eexists. eexists.
  split; [exact toyzk_ok|]. split; [vm_compute; reflexivity|]. split; [reflexivity|]. split; [reflexivity|].
  cbn [dg_members In]. intros m [<-|[]]; apply beq_neq; vm_compute; reflexivity.
Qed.
(* what is right: the next revision is asked for, once, and only by someone who is invited *)
Theorem C101_what_is_sent z me a1 a2 w1 w2 pres patch k s : keyed s ->
  snd (JoinGroup z me a1 a2 w1 w2 pres patch k s) = [] \/
  exists p d key e b m x u, snd (JoinGroup z me a1 a2 w1 w2 pres patch k s) = [(p, (dg_rev d + 1) mod 2 ^ 32)] /\ pres = Ok p /\
    a1 = Answered e b /\ hex key = k /\ decryptGroup z key e = Some d /\
    In m (eg_pending e) /\ ep_member m = Some x /\ zk_uuid z key (e_uid x) = Some u /\ HexToUUID (hex u) = me.
Proof.
  intros KS.
  unfold JoinGroup. destruct (FindGroup k s) as [s0 [g0|]] eqn:FG; [|now left].
  assert (F0 : find2 k (s2_map s0) = Some g0).
  { unfold FindGroup, loadGroupV2 in FG. destruct (s2_map s) eqn:M.
    - destruct (find2 k (s2_files s)) eqn:F; [|discriminate]. injection FG as <- <-. cbn [s2_map find2]. rewrite beq_refl. reflexivity.
    - injection FG as <- F. rewrite M. exact F. }
  assert (HK : hex (g2_key g0) = k).
  { pose proof (entries_find (fun k g => hex (g2_key g) = k) k s KS) as [_ X]. rewrite FG in X. now apply X. }
  destruct (UpdateGroupFromServer z me a1 w1 (g2_key g0) s0) as [s1 r1] eqn:U.
  destruct r1 as [u|e|]; [|now left|now left].
  destruct (find2 k (s2_map s1)) as [g|] eqn:F1; [|now left].
  destruct (invited_as z (g2_key g) me (eg_pending (g2_ctx g))) as [m| |] eqn:I; [|now left|now left].
  destruct pres as [p| |]; [|now left|now left]. destruct (g2_dec g) as [d|] eqn:D; [|now left].
  right.
  pose proof (update_known z me a1 w1 (g2_key g0) s0 g0) as X. rewrite HK in X. specialize (X F0 k). rewrite beq_refl in X.
  rewrite U in X. cbn [fst] in X. rewrite F1 in X. injection X as X.
  assert (Q : exists e b, a1 = Answered e b /\ g = fst (decryptGroupFromServer z me e g0)).
  { unfold UpdateGroupFromServer in U. rewrite HK, F0 in U. unfold query in *. destruct (negb (zk_params z (g2_key g0))); [discriminate|].
    destruct a1 as [e|e b]; [discriminate|]. now exists e, b. }
  destruct Q as (e & b & Ea & Eg).
  assert (K : g2_key g = g2_key g0) by (rewrite Eg; apply dgfs_key).
  assert (C : g2_ctx g = e) by (rewrite Eg; apply dgfs_ctx).
  assert (DD : decryptGroup z (g2_key g0) e = Some d) by (rewrite <- D, Eg, dgfs_dec; reflexivity).
  rewrite K, C in I.
  assert (W : forall l, invited_as z (g2_key g0) me l = Ok m ->
     exists q x v, In q l /\ ep_member q = Some x /\ zk_uuid z (g2_key g0) (e_uid x) = Some v /\ HexToUUID (hex v) = me).
  { induction l as [|q l IH]; cbn [invited_as]; [discriminate|]. destruct (ep_member q) as [y|] eqn:Y; [|discriminate].
    destruct (negb _); [discriminate|]. destruct (zk_uuid z (g2_key g0) (e_uid y)) as [v|] eqn:V; [|discriminate].
    destruct (beq (HexToUUID (hex v)) me) eqn:B.
    - intros _. exists q, y, v. split; [now left|]. split; [exact Y|]. split; [exact V|]. now apply beq_eq.
    - intros H. destruct (IH H) as (q' & x' & v' & In' & R). exists q', x', v'. split; [now right|exact R]. }
  destruct (W _ I) as (q & x & v & Iq & Xq & Vq & Hv).
  exists p, d, (g2_key g0), e, b, q, x, v.
  split; [match goal with |- context [match ?x with Some _ => _ | None => _ end] => destruct x; reflexivity end|]. repeat (split; [first [reflexivity|assumption]|]). exact Hv.
Qed.
Example C101_ex : snd (JoinGroup toyzk me_text (Answered invited_group true) (Answered xgroup true) true true (Ok [1]) (Ok tt) xk
                         (run2 toyzk me_text invited_run)) = [([1], 2)].
Proof. vm_compute. reflexivity. Qed.
Print Assumptions C101_answer_does_not_matter.
Print Assumptions C101_refused_join_succeeds_refuted.
Print Assumptions C101_what_is_sent.

(* ================= C102 ================= *)
Theorem C102_refused_update_keeps_all z me e w key s : fst (UpdateGroupFromServer z me (Refused e) w key s) = s.
Proof. unfold UpdateGroupFromServer, query. destruct (negb _); reflexivity. Qed.
(* an answer that cannot be read is an error, and what was known is gone from memory *)
Theorem C102_unreadable_answer z me e b w key s g :
  find2 (hex key) (s2_map s) = Some g -> zk_params z (g2_key g) = true -> zk_blob z (g2_key g) (eg_title e) = None ->
  exists err s', UpdateGroupFromServer z me (Answered e b) w key s = (s', Err err) /\ s2_files s' = s2_files s /\
  (exists g', find2 (hex key) (s2_map s') = Some g' /\ g2_dec g' = None) /\
  forall err' w', hex (g2_key g) = hex key -> snd (GetMembers z me (Refused err') w' (hex key) s') = Panic.
Proof.
  intros F Z B. unfold UpdateGroupFromServer. rewrite F. unfold query. rewrite Z. cbn [negb].
  pose proof (dgfs_dec z me e g) as D. pose proof (dgfs_key z me e g) as K.
  assert (N : decryptGroup z (g2_key g) e = None) by (unfold decryptGroup; rewrite Z, B; reflexivity).
  unfold decryptGroupFromServer in *. cbn [fst] in D, K. rewrite N in *.
  set (g' := CheckJoinStatus z me _) in *. clearbody g'. eexists. eexists. split; [reflexivity|]. split; [reflexivity|].
  cbn [s2_map]. split; [exists g'; rewrite find_put2, beq_refl; split; [reflexivity|exact D]|].
  intros err' w' HK. unfold GetMembers, FindGroup. cbn [s2_map]. destruct (put2 (hex key) g' (s2_map s)) eqn:M; [now apply put2_not_nil in M|].
  rewrite <- M. rewrite find_put2, beq_refl.
  pose proof (C102_refused_update_keeps_all z me err' w' (g2_key g') (mkSt2 (put2 (hex key) g' (s2_map s)) (s2_files s))) as U.
  destruct (UpdateGroupFromServer z me (Refused err') w' (g2_key g') _) as [s3 r3]. cbn [fst] in U. subst s3.
  cbn [snd s2_map]. rewrite find_put2, beq_refl, D. reflexivity.
Qed.
Definition bad_answer : egroup := mkEg [1] [] None 2 [] [].
Theorem C102_failed_update_loses_group_refuted : exists z me ops a w key g d e,
  zk_ok z /\ let s := run2 z me ops in
  find2 (hex key) (s2_map s) = Some g /\ g2_dec g = Some d /\ dg_members d <> [] /\
  snd (UpdateGroupFromServer z me a w key s) = Err e /\
  match find2 (hex key) (s2_map (fst (UpdateGroupFromServer z me a w key s))) with Some g' => g2_dec g' = None | None => False end.
Proof.
  exists toyzk, me_text, [msg_op (xctx 1)], (Answered bad_answer true), true, xkey. eexists. eexists. eexists.
  split; [exact toyzk_ok|]. cbn zeta. split; [vm_compute; reflexivity|]. split; [reflexivity|]. split; [discriminate|].
  split; [vm_compute; reflexivity|]. vm_compute. reflexivity.
Qed.
Example C102_ex : find2 (hex xkey) (s2_map (run2 toyzk me_text [msg_op (xctx 1)])) <> None /\ zk_params toyzk xkey = true /\
  zk_blob toyzk xkey (eg_title bad_answer) = None.
Proof. split; [vm_compute; discriminate|]. split; vm_compute; reflexivity. Qed.
Print Assumptions C102_refused_update_keeps_all.
Print Assumptions C102_unreadable_answer.
Print Assumptions C102_failed_update_loses_group_refuted.

(* ================= C103 ================= *)
Theorem C103_completeness_ignored z me e b b' w key s :
  UpdateGroupFromServer z me (Answered e b) w key s = UpdateGroupFromServer z me (Answered e b') w key s.
Proof. reflexivity. Qed.
Definition half_group : egroup := mkEg xtitle [] (Some (2, 2, 4)) 1 [plain alice] [].
(* a body that breaks off after the first member replaces the group, in the file too *)
Theorem C103_incomplete_answer_kept_refuted : exists z me ops e key g d g' d',
  zk_ok z /\ let s := run2 z me ops in
  find2 (hex key) (s2_files s) = Some g /\ g2_dec g = Some d /\
  let s' := fst (UpdateGroupFromServer z me (Answered e false) true key s) in
  snd (UpdateGroupFromServer z me (Answered e false) true key s) = Ok tt /\
  find2 (hex key) (s2_files s') = Some g' /\ g2_dec g' = Some d' /\ (length (dg_members d') < length (dg_members d))%nat.
Proof.
  exists toyzk, me_text, [msg_op (xctx 1)], half_group, xkey. eexists. eexists. eexists. eexists. split; [exact toyzk_ok|]. cbn zeta.
  split; [vm_compute; reflexivity|]. split; [reflexivity|]. split; [vm_compute; reflexivity|]. split; [vm_compute; reflexivity|].
  split; [reflexivity|]. apply PeanoNat.Nat.ltb_lt. vm_compute. reflexivity.
Qed.
Print Assumptions C103_completeness_ignored.
Print Assumptions C103_incomplete_answer_kept_refuted.

(* ================= C104 ================= *)
(* who a member is, as the server lists them *)
Definition member_is (z : zk) (key : bytes) (m : emember) (u : bytes) : Prop :=
  (e_pres m = [] /\ zk_uuid z key (e_uid m) = Some u) \/
  (e_pres m <> [] /\ exists uc pc p, zk_pres z (e_pres m) = Some (uc, pc) /\ zk_uuid z key uc = Some u /\ zk_pkey z key pc u = Some p).
Definition same_member (z : zk) (key : bytes) (m : emember) (d : dmember) : Prop :=
  member_is z key m (dm_uuid d) /\ dm_role d = e_role m /\ dm_joined d = e_joined m.
Lemma decryptMember_spec z key m : zk_params z key = true ->
  match decryptMember z key m with Some d => same_member z key m d | None => forall u, ~ member_is z key m u end.
Proof.
  intros Z. unfold decryptMember, same_member, member_is. rewrite Z. cbn [negb].
  destruct (e_pres m) as [|x l] eqn:E.
  - destruct (zk_uuid z key (e_uid m)) as [u|] eqn:U.
    + cbn [dm_uuid dm_role dm_joined]. split; [left; auto|auto].
    + intros u [[_ X]|[X _]]; [discriminate|now apply X].
  - destruct (zk_pres z (x :: l)) as [[uc pc]|] eqn:P.
    + destruct (zk_uuid z key uc) as [u|] eqn:U.
      * destruct (zk_pkey z key pc u) as [p|] eqn:K.
        -- cbn [dm_uuid dm_role dm_joined]. split; [right; split; [discriminate|]; exists uc, pc, p; auto|auto].
        -- intros u' [[X _]|(_ & uc' & pc' & p & [= <- <-] & X & Y)]; [discriminate|congruence].
      * intros u' [[X _]|(_ & uc' & pc' & p & [= <- <-] & X & Y)]; [discriminate|congruence].
    + intros u' [[X _]|(_ & uc' & pc' & p & X & _)]; discriminate.
Qed.
(* If an update succeeds and every member on the server's list can be made out, they are all known, in order *)
Theorem C104_members_known z me e b w key s s' g : hex (g2_key g) = hex key ->
  find2 (hex key) (s2_map s) = Some g -> UpdateGroupFromServer z me (Answered e b) w key s = (s', Ok tt) ->
  (forall m, In m (eg_members e) -> exists u, member_is z (g2_key g) m u) ->
  exists g' d, find2 (hex key) (s2_map s') = Some g' /\ g2_dec g' = Some d /\ dg_rev d = eg_rev e /\
    Forall2 (same_member z (g2_key g)) (eg_members e) (dg_members d).
Proof.
  intros HK F U A. pose proof (update_known z me (Answered e b) w key s g F (hex key)) as M. rewrite U, beq_refl in M. cbn [fst] in M.
  unfold UpdateGroupFromServer in U. rewrite F in U. unfold query in *. destruct (zk_params z (g2_key g)) eqn:Z; cbn [negb] in *; [|discriminate].
  pose proof (dgfs_dec z me e g) as D.
  assert (OK : snd (decryptGroupFromServer z me e g) = true) by (destruct (decryptGroupFromServer z me e g) as [g1 []]; [reflexivity|discriminate]).
  set (g1 := fst (decryptGroupFromServer z me e g)) in *. clearbody g1.
  unfold decryptGroupFromServer in OK. cbn [snd] in OK. unfold decryptGroup in D, OK. rewrite Z in D, OK. cbn [negb] in D, OK.
  destruct (zk_blob z (g2_key g) (eg_title e)) as [t|]; [|discriminate].
  exists g1. eexists. split; [exact M|]. split; [exact D|]. split; [reflexivity|]. cbn [dg_members].
  clear - A Z. revert A. induction (eg_members e) as [|m l IH]; intros A; cbn [somes]; [constructor|].
  pose proof (decryptMember_spec z (g2_key g) m Z) as S. destruct (decryptMember z (g2_key g) m) as [d|].
  - constructor; [exact S|]. apply IH. intros m' I. apply A. now right.
  - exfalso. destruct (A m (or_introl eq_refl)) as [u H]. exact (S u H).
Qed.
(* one that cannot be made out is left out and nobody is told *)
Definition odd_member : emember := mkEm (xkey ++ carol) 1 [] [2; 3] 0.
Definition odd_group : egroup := mkEg xtitle [] None 1 [plain alice; odd_member] [].
Theorem C104_member_left_out_refuted : exists z me ops e key g d,
  zk_ok z /\ let s := run2 z me ops in
  let s' := fst (UpdateGroupFromServer z me (Answered e true) true key s) in
  snd (UpdateGroupFromServer z me (Answered e true) true key s) = Ok tt /\
  find2 (hex key) (s2_map s') = Some g /\ g2_dec g = Some d /\ (length (dg_members d) < length (eg_members e))%nat.
Proof.
  exists toyzk, me_text, [msg_op (xctx 1)], odd_group, xkey. eexists. eexists. split; [exact toyzk_ok|]. cbn zeta.
  split; [vm_compute; reflexivity|]. split; [vm_compute; reflexivity|]. split; [reflexivity|]. apply PeanoNat.Nat.ltb_lt. vm_compute. reflexivity.
Qed.
Example C104_ex : snd (UpdateGroupFromServer toyzk me_text (Answered xgroup true) true xkey (run2 toyzk me_text [msg_op (xctx 1)])) = Ok tt /\
  forall m, In m (eg_members xgroup) -> exists u, member_is toyzk xkey m u.
Proof.
  split; [vm_compute; reflexivity|]. cbn [xgroup eg_members In]. intros m [<-|[<-|[]]].
  - exists alice. left. split; vm_compute; reflexivity.
  - exists bob. left. split; vm_compute; reflexivity.
Qed.
Print Assumptions C104_members_known.
Print Assumptions C104_member_left_out_refuted.

(* ================= C105 ================= *)
(* After an update that succeeds the status is "member" exactly if we are among the members, and "invited" otherwise *)
Theorem C105_status z me e b w key s s' g : find2 (hex key) (s2_map s) = Some g ->
  UpdateGroupFromServer z me (Answered e b) w key s = (s', Ok tt) ->
  exists g' d, find2 (hex key) (s2_map s') = Some g' /\ g2_dec g' = Some d /\
    ((exists m, In m (dg_members d) /\ HexToUUID (hex (dm_uuid m)) = me) -> g2_join g' = J_MEMBER) /\
    (~ (exists m, In m (dg_members d) /\ HexToUUID (hex (dm_uuid m)) = me) -> g2_join g' = J_INVITE).
Proof.
  intros F U. pose proof (update_known z me (Answered e b) w key s g F (hex key)) as M. rewrite U, beq_refl in M. cbn [fst] in M.
  unfold UpdateGroupFromServer in U. rewrite F in U. unfold query in *. destruct (zk_params z (g2_key g)) eqn:Z; cbn [negb] in *; [|discriminate].
  unfold decryptGroupFromServer in M, U. cbn [fst] in M. destruct (decryptGroup z (g2_key g) e) as [d|] eqn:D; [|discriminate].
  eexists. exists d. split; [exact M|]. split; [rewrite check_dec; reflexivity|].
  unfold CheckJoinStatus. cbn [g2_dec set_join g2_join].
  destruct (existsb (fun m => beq (HexToUUID (hex (dm_uuid m))) me) (dg_members d)) eqn:X.
  - split; [reflexivity|]. intros N. exfalso. apply N. apply existsb_exists in X. destruct X as (m & I & B). exists m. split; [exact I|now apply beq_eq].
  - split; [|reflexivity]. intros (m & I & B). exfalso. assert (Y : existsb (fun m => beq (HexToUUID (hex (dm_uuid m))) me) (dg_members d) = true).
    { apply existsb_exists. exists m. split; [exact I|]. now apply beq_eq. }
    congruence.
Qed.
Definition without_me : egroup := mkEg xtitle [] None 2 [plain bob] [].
(* someone who was removed is told that they are invited *)
Theorem C105_removed_is_invited_refuted : exists z me ops e key g,
  zk_ok z /\ eg_pending e = [] /\
  let s := run2 z me ops in
  snd (UpdateGroupFromServer z me (Answered e true) true key s) = Ok tt /\
  find2 (hex key) (s2_map (fst (UpdateGroupFromServer z me (Answered e true) true key s))) = Some g /\ g2_join g = J_INVITE.
Proof.
  exists toyzk, me_text, [msg_op (xctx 1)], without_me, xkey. eexists. split; [exact toyzk_ok|]. split; [reflexivity|]. cbn zeta.
  split; [vm_compute; reflexivity|]. split; vm_compute; reflexivity.
Qed.
Example C105_ex : exists s', UpdateGroupFromServer toyzk me_text (Answered xgroup true) true xkey (run2 toyzk me_text [msg_op (xctx 1)]) = (s', Ok tt).
Proof. eexists. vm_compute. reflexivity. Qed.
Print Assumptions C105_status.
Print Assumptions C105_removed_is_invited_refuted.

(* ================= C106 ================= *)
(* GroupAttributeBlob (/repo/protobuf/Groups.proto 226-233) with a title of fewer than 128 bytes: field 1, the length,
   the text *)
Definition title_blob (t : bytes) : bytes := 10 :: zlen t :: t.
Lemma filter_all {A} (f : A -> bool) l : Forall (fun x => f x = true) l -> filter f l = l.
Proof. induction 1 as [|x l H _ IH]; cbn [filter]; [reflexivity|]. now rewrite H, IH. Qed.
Theorem C106_title z key e t d : zk_ok z ->
  zk_blob z key (eg_title e) = Some (title_blob t) -> zlen t < 128 -> Forall (fun b => printable b = true) t ->
  decryptGroup z key e = Some d ->
  dg_title d = if (32 <=? zlen t) && (zlen t <=? 126) then zlen t :: t else t.
Proof.
  intros Z B L P D. unfold decryptGroup in D. rewrite B in D. destruct (zk_params z key); [|discriminate]. injection D as <-. cbn [dg_title].
  rewrite (show_ascii z Z).
  - unfold title_blob. cbn [filter]. rewrite (filter_all printable t P). reflexivity.
  - unfold title_blob. constructor; [lia|]. constructor; [unfold zlen in *; lia|]. eapply Forall_impl; [|exact P]. cbn beta. intros b H.
    unfold printable in H. lia.
Qed.
Definition long_title : bytes := repeat 97 65.
Theorem C106_title_gets_a_letter_refuted : exists z key e t d,
  zk_ok z /\ zk_blob z key (eg_title e) = Some (title_blob t) /\ Forall (fun b => printable b = true) t /\
  decryptGroup z key e = Some d /\ dg_title d <> t /\ dg_title d = 65 :: t.
Proof.
  exists toyzk, xkey, (mkEg (xkey ++ title_blob long_title) [] None 1 [] []), long_title. eexists. split; [exact toyzk_ok|].
  split; [vm_compute; reflexivity|]. split; [repeat constructor|]. split; [vm_compute; reflexivity|]. split; [|reflexivity].
  cbn [dg_title]. apply beq_neq. vm_compute. reflexivity.
Qed.
Example C106_ex : exists d, decryptGroup toyzk xkey xgroup = Some d /\ dg_title d = [72; 101; 121].
Proof. eexists. split; vm_compute; reflexivity. Qed.
Print Assumptions C106_title.
Print Assumptions C106_title_gets_a_letter_refuted.

(* ================= C107 ================= *)
Lemma send2_all out l : forall n ts, (forall n, exists t, out n = Ok t) -> (forall m, In m l -> (10 <= length (dm_uuid m))%nat) ->
  exists t, fst (send2 out n l ts) = Ok t /\ Forall2 (fun m dest => idToHexUUID (dm_uuid m) = Ok dest) l (snd (send2 out n l ts)).
Proof.
  induction l as [|m l IH]; intros n ts O L; cbn [send2]; [exists ts; split; [reflexivity|constructor]|].
  assert (X : exists dest, idToHexUUID (dm_uuid m) = Ok dest).
  { unfold idToHexUUID. specialize (L m (or_introl eq_refl)). destruct (PeanoNat.Nat.ltb_spec (length (dm_uuid m)) 10); [lia|]. eexists. reflexivity. }
  destruct X as [dest X]. rewrite X. destruct (O n) as [t T]. rewrite T.
  destruct (IH (S n) t O (fun m' I => L m' (or_intror I))) as (t' & A & B). destruct (send2 out (S n) l t) as [x tried]. cbn [fst snd] in *.
  exists t'. split; [exact A|]. constructor; assumption.
Qed.
(* A message to a group we are in and know goes to every member, if every one can be reached *)
Theorem C107_every_member z me a w out k s g d : snd (FindGroup k s) = Some g -> g2_dec g = Some d ->
  (exists m, In m (dg_members d) /\ HexToUUID (hex (dm_uuid m)) = me) ->
  (forall m, In m (dg_members d) -> (10 <= length (dm_uuid m))%nat) -> (forall n, exists t, out n = Ok t) ->
  exists s' t tried, sendGroupV2Helper z me a w out k s = (s', Ok t, tried) /\
    Forall2 (fun m dest => idToHexUUID (dm_uuid m) = Ok dest) (dg_members d) tried.
Proof.
  intros F D M L O. unfold sendGroupV2Helper. destruct (FindGroup k s) as [s0 og]. cbn [snd] in F. subst og.
  assert (J : g2_join (CheckJoinStatus z me g) = J_MEMBER).
  { unfold CheckJoinStatus. rewrite D. cbn [set_join g2_join]. destruct (existsb _ _) eqn:X; [reflexivity|]. exfalso.
    destruct M as (m & I & B). assert (Y : existsb (fun m => beq (HexToUUID (hex (dm_uuid m))) me) (dg_members d) = true).
    { apply existsb_exists. exists m. split; [exact I|]. now apply beq_eq. }
    congruence. }
  rewrite J. cbn [J_MEMBER Z.eqb negb]. pose proof (check_dec z me g) as E. rewrite D in E. rewrite E. cbn [s2_map].
  rewrite find_put2, beq_refl, E.
  destruct (send2_all out (dg_members d) 0 0 O L) as (t & A & B). destruct (send2 out 0 (dg_members d) 0) as [x tried]. cbn [fst snd] in A, B.
  destruct M as (m & I & _). destruct (dg_members d) as [|m0 l]; [destruct I|]. subst x. eexists. exists t, tried. split; [reflexivity|exact B].
Qed.
(* ourselves included *)
Theorem C107_sent_to_oneself_refuted : exists z me a w out k ops t tried,
  zk_ok z /\ (let '(_, r, l) := sendGroupV2Helper z me a w out k (run2 z me ops) in r = Ok t /\ l = tried) /\ In me tried.
Proof.
  exists toyzk, me_text, (Refused EOther), true, (fun n => Ok 5), xk, [msg_op (xctx 1)]. eexists. eexists. split; [exact toyzk_ok|].
  split; [vm_compute; split; reflexivity|]. left. reflexivity.
Qed.
(* and the first failure keeps it from all who come later *)
Theorem C107_stops_at_first_failure out l : forall n ts i e,
  (forall j, (j < i)%nat -> exists t, out (n + j)%nat = Ok t) -> out (n + i)%nat = Err e -> (i < length l)%nat ->
  (forall m, In m l -> (10 <= length (dm_uuid m))%nat) ->
  fst (send2 out n l ts) = Err e /\ length (snd (send2 out n l ts)) = S i.
Proof.
  induction l as [|m l IH]; intros n ts i e P E I L; cbn [length] in I; [lia|]. cbn [send2].
  assert (X : exists dest, idToHexUUID (dm_uuid m) = Ok dest).
  { unfold idToHexUUID. specialize (L m (or_introl eq_refl)). destruct (PeanoNat.Nat.ltb_spec (length (dm_uuid m)) 10); [lia|]. eexists. reflexivity. }
  destruct X as [dest X]. rewrite X. destruct i as [|i].
  - rewrite PeanoNat.Nat.add_0_r in E. rewrite E. split; reflexivity.
  - destruct (P 0%nat ltac:(lia)) as [t T]. rewrite PeanoNat.Nat.add_0_r in T. rewrite T.
    destruct (IH (S n) t i e) as [A B].
    + intros j J. destruct (P (S j) ltac:(lia)) as [t' T']. exists t'. replace (S n + j)%nat with (n + S j)%nat by lia. exact T'.
    + replace (S n + i)%nat with (n + S i)%nat by lia. exact E.
    + lia.
    + intros m' J. apply L. now right.
    + destruct (send2 out (S n) l t) as [x tried]. cbn [fst snd length] in *. split; [exact A|now rewrite B].
Qed.
Example C107_ex : snd (sendGroupV2Helper toyzk me_text (Refused EOther) true (fun n => Ok 5) xk (run2 toyzk me_text [msg_op (xctx 1)]))
  = [HexToUUID (hex alice); HexToUUID (hex bob)] /\
  snd (fst (sendGroupV2Helper toyzk me_text (Refused EOther) true (fun n => if Nat.eqb n 0 then Err EOther else Ok 5) xk (run2 toyzk me_text [msg_op (xctx 1)])))
  = Err EOther.
Proof. split; vm_compute; reflexivity. Qed.
Print Assumptions C107_every_member.
Print Assumptions C107_sent_to_oneself_refuted.
Print Assumptions C107_stops_at_first_failure.
