(* C215 the command line program answers, and names, the ones who wrote; C216 what is typed is sent *)
From Coq Require Import String Ascii ZArith List Lia Bool.
From Verif Require Import Bytes Res Encodings Content Sending Receiving PropApplications PropConsole Gateway PropGateway Program.
Import ListNotations.
Open Scope Z_scope.

(* ---- C215 ---- *)

(* with -echo every message that arrives is answered once, with its text, to its source alone *)
Theorem C215_echo : forall C f sk st fs cur, fl_echo f = true ->
  attached C f sk st fs cur = (cur, map (fun m => [Sent false (m_source m) (m_text m)]) (handed_over (fst (fst (listen C sk st fs))))).
Proof.
  intros C f sk st fs cur E. unfold attached. generalize (handed_over (fst (fst (listen C sk st fs)))) as ms. intros ms. revert cur.
  induction ms as [|m ms IH]; intros cur; [reflexivity|]. cbn [map messages]. unfold messageHandler at 1. rewrite E. cbn [cmsg_of cm_group cm_source cm_text].
  rewrite IH. reflexivity.
Qed.
(* hence an unsealed message of no group is answered to the one who wrote it *)
Theorem C215_echo_direct_partial : forall C ou st rnd rnd2 e m f cur,
  In (ACall (HMessage m)) (snd (handleReceivedMessage C ou st rnd rnd2 (Some e))) -> e_type e <> Some 6 -> m_group m = None -> fl_echo f = true ->
  snd (messageHandler f (cmsg_of m) cur) = [Sent false (m_uuid m) (m_text m)].
Proof.
  intros C ou st rnd rnd2 e m f cur H ET G E. apply arrived_from in H.
  assert (X : match e_type e with Some t => t =? 6 | None => false end = false) by (destruct (e_type e) as [t|]; [apply Z.eqb_neq; congruence|reflexivity]).
  rewrite X in H. destruct H as [H1 H2]. unfold messageHandler. rewrite E. cbn [cmsg_of cm_group cm_source cm_text snd]. now rewrite H1, H2.
Qed.
(* FALSE of a sealed one: the answer is for nobody, and sending it fails without a request *)
Theorem C215_to_nobody : forall C V rnd fuel self pk now text timer st,
  exists e, SendMessage C V rnd (S fuel) self pk now [] text timer st = (Some (Err e), default_devs V st []).
Proof.
  intros. eexists. unfold SendMessage, sendMessage. cbn [o_dest]. cbn [buildAndSend]. unfold buildMessage. cbn [recID]. reflexivity.
Qed.
Theorem C215_sealed_unanswered : forall C ou st rnd rnd2 e m f cur,
  In (ACall (HMessage m)) (snd (handleReceivedMessage C ou st rnd rnd2 (Some e))) -> e_type e = Some 6 -> fl_echo f = true ->
  snd (messageHandler f (cmsg_of m) cur) = [Sent false [] (m_text m)].
Proof.
  intros C ou st rnd rnd2 e m f cur H ET E. apply arrived_from in H. rewrite ET in H. cbn [Z.eqb Pos.eqb] in H.
  unfold messageHandler. rewrite E. cbn [cmsg_of cm_group cm_source cm_text snd]. now rewrite H.
Qed.
Theorem C215_echo_refuted : forall C st rnd, exists ou e m f cur,
  In (ACall (HMessage m)) (snd (handleReceivedMessage C ou st rnd rnd (Some e))) /\ fl_echo f = true /\ m_uuid m <> [] /\
  forall to, In (Sent false to (m_text m)) (snd (messageHandler f (cmsg_of m) cur)) -> to <> m_uuid m.
Proof.
  intros C st rnd. exists (ex_to "a" ex_hi), ex_sealed, (mkMsg [] (txt "a") (txt "hi") [] None 0 0 None 7 None [] None None), ex_echo, [].
  split; [vm_compute; now left|]. split; [reflexivity|]. split; [discriminate|]. intros to [H|[]]. injection H as <-. discriminate.
Qed.

(* The first message begins a conversation with its source, unless one is there; later ones begin none, if sources are told. *)
Definition conversations (es : list (list effect)) : list (bool * bytes) :=
  flat_map (fun e => match e with Conversation g t => [(g, t)] | _ => [] end) (concat es).
Lemma conversations_cons e es : conversations (e :: es) = flat_map (fun e => match e with Conversation g t => [(g, t)] | _ => [] end) e ++ conversations es.
Proof. unfold conversations. cbn [concat]. now rewrite flat_map_app. Qed.
Lemma quiet f m cur : fl_echo f = false -> cur <> [] -> fst (messageHandler f m cur) = cur /\
  flat_map (fun e => match e with Conversation g t => [(g, t)] | _ => [] end) (snd (messageHandler f m cur)) = [].
Proof.
  intros E N. unfold messageHandler. rewrite E. destruct cur as [|c r]; [now elim N|]. cbn [fst snd]. split; [reflexivity|].
  rewrite !flat_map_app.
  assert (A : forall l, flat_map (fun e => match e with Conversation g t => [(g, t)] | _ => [] end) (map (SavedAttachment (cm_source m)) l) = []) by (induction l as [|x l IH]; [reflexivity|exact IH]).
  rewrite A. destruct (cm_text m); [destruct (fl_redis f); reflexivity|]. destruct (fl_hook f), (fl_raw f), (fl_redis f); reflexivity.
Qed.
Lemma begins f m : fl_echo f = false -> fl_redis f = false -> fst (messageHandler f (cmsg_of m) []) = m_source m /\
  flat_map (fun e => match e with Conversation g t => [(g, t)] | _ => [] end) (snd (messageHandler f (cmsg_of m) [])) = [(false, m_source m)].
Proof.
  intros E R. unfold messageHandler. rewrite E, R. cbn [cmsg_of cm_group cm_source cm_text cm_atts fst snd]. split; [reflexivity|].
  rewrite !flat_map_app.
  assert (A : forall l, flat_map (fun e => match e with Conversation g t => [(g, t)] | _ => [] end) (map (SavedAttachment (m_source m)) l) = []) by (induction l as [|x l IH]; [reflexivity|exact IH]).
  rewrite A. destruct (m_text m); [reflexivity|]. destruct (fl_hook f), (fl_raw f); reflexivity.
Qed.
Lemma settled f ms cur : fl_echo f = false -> cur <> [] -> fst (messages f ms cur) = cur /\ conversations (snd (messages f ms cur)) = [].
Proof.
  intros E N. induction ms as [|m ms IH]; [split; reflexivity|]. cbn [messages]. destruct (quiet f m cur E N) as [Q1 Q2].
  destruct (messageHandler f m cur) as [c e]. cbn [fst snd] in Q1, Q2. subst c. destruct (messages f ms cur) as [c' es]. cbn [fst snd] in IH |- *.
  rewrite conversations_cons, Q2. exact IH.
Qed.
(* All told: each message without source begins another conversation with nobody, the first with a source the last one. *)
Fixpoint expected (ms : list message) : list bytes :=
  match ms with
  | [] => []
  | m :: r => m_source m :: match m_source m with [] => expected r | _ => [] end
  end.
Theorem C215_conversations : forall f ms, fl_echo f = false -> fl_redis f = false ->
  conversations (snd (messages f (map cmsg_of ms) [])) = map (fun to => (false, to)) (expected ms).
Proof.
  intros f ms E R. induction ms as [|m ms IH]; [reflexivity|]. cbn [map messages expected]. destruct (begins f m E R) as [B1 B2].
  destruct (messageHandler f (cmsg_of m) []) as [c e]. cbn [fst snd] in B1, B2. subst c.
  destruct (m_source m) as [|x r] eqn:ES.
  - destruct (messages f (map cmsg_of ms) []) as [c' es]. cbn [fst snd] in IH |- *. rewrite conversations_cons, B2, IH. reflexivity.
  - destruct (settled f (map cmsg_of ms) (x :: r) E ltac:(discriminate)) as [_ S2]. destruct (messages f (map cmsg_of ms) (x :: r)) as [c' es]. cbn [fst snd] in S2 |- *.
    rewrite conversations_cons, B2, S2. reflexivity.
Qed.
Theorem C215_one_conversation_partial : forall f m ms, fl_echo f = false -> fl_redis f = false -> m_source m <> [] ->
  conversations (snd (messages f (map cmsg_of (m :: ms)) [])) = [(false, m_source m)].
Proof. intros f m ms E R N. rewrite C215_conversations by assumption. cbn [expected]. destruct (m_source m); [now elim N|reflexivity]. Qed.
(* FALSE of sealed messages: every one of them begins another one, with nobody, and all of them read the same input. *)
Theorem C215_one_conversation_refuted : exists f ms, fl_echo f = false /\ fl_redis f = false /\
  Forall (fun m => forall C st rnd, exists ou e, In (ACall (HMessage m)) (snd (handleReceivedMessage C ou st rnd rnd (Some e)))) ms /\
  conversations (snd (messages f (map cmsg_of ms) [])) = [(false, []); (false, []); (false, [])].
Proof.
  exists (mkFlags false [] true false).
  assert (A : forall C st rnd, exists ou e, In (ACall (HMessage (mkMsg [] (txt "a") (txt "hi") [] None 0 0 None 7 None [] None None))) (snd (handleReceivedMessage C ou st rnd rnd (Some e))))
    by (intros C st rnd; exists (ex_to "a" ex_hi), ex_sealed; vm_compute; now left).
  eexists [_; _; _]. split; [reflexivity|]. split; [reflexivity|]. split; [constructor; [exact A|constructor; [exact A|constructor; [exact A|constructor]]]|].
  vm_compute. reflexivity.
Qed.

(* ---- C216 ---- *)

(* a line as it is typed: with a newline at its end and nowhere else, and room for it *)
Definition typed (l : bytes) : bytes := l ++ [10].
Definition plain_line (l : bytes) : Prop := ~ In 10 l /\ ~ In 13 l /\ zlen l < 4096.
Lemma upto_typed l r : ~ In 10 l -> upto_newline (l ++ 10 :: r) = Some (typed l).
Proof.
  induction l as [|c l IH]; intros N; [reflexivity|]. cbn [app upto_newline]. destruct (Z.eqb_spec c 10) as [->|_]; [elim N; now left|].
  rewrite IH by (intros X; apply N; now right). reflexivity.
Qed.
Lemma upto_none l : ~ In 10 l -> upto_newline l = None.
Proof.
  induction l as [|c l IH]; intros N; [reflexivity|]. cbn [upto_newline]. destruct (Z.eqb_spec c 10) as [->|_]; [elim N; now left|].
  now rewrite IH by (intros X; apply N; now right).
Qed.
Lemma no_return b : ~ In 13 b -> match rev b with 13 :: r => rev r | _ => b end = b.
Proof.
  intros N. destruct (rev b) as [|c r] eqn:E; [reflexivity|]. destruct (Z.eq_dec c 13) as [->|NE]; [elim N; apply in_rev; rewrite E; now left|].
  destruct c as [|p|p]; try reflexivity. do 4 (destruct p as [p|p|]; try reflexivity). now elim NE.
Qed.
Lemma chop_typed l : ~ In 13 l -> chop (typed l) = l.
Proof. intros N. unfold chop, typed. rewrite removelast_last. cbv zeta. now apply no_return. Qed.
(* one read that has a line and more: the line is the answer, and the rest of what was read is lost *)
Lemma readLine_lost l more i : plain_line l -> zlen (l ++ 10 :: more) <= 4096 -> readLine ((l ++ 10 :: more) :: i) = (Some l, i).
Proof.
  intros (N10 & N13 & L) LB0. assert (LB : (length (l ++ 10%Z :: more) <= room)%nat) by (unfold zlen in LB0; unfold room; lia). unfold readLine. cbn [readSlice]. cbn [upto_newline].
  change (length (@nil Z)) with 0%nat. replace (room <=? 0)%nat with false by (symmetry; apply Nat.leb_gt; unfold room; lia).
  rewrite Nat.sub_0_r, (proj2 (Nat.leb_le _ _) LB). rewrite app_nil_l.
  replace (readSlice (l ++ 10 :: more) i) with (Line (typed l), i); [now rewrite chop_typed by assumption|].
  destruct i; cbn [readSlice]; now rewrite upto_typed.
Qed.
(* If every read gives one line, as from a terminal, all lines that are not empty are sent, in order. *)
Theorem C216_typed_partial : forall ls n, Forall plain_line ls -> (length ls < n)%nat ->
  conversation n (map typed ls) = Some (filter (fun l => negb (beq l [])) ls).
Proof.
  induction ls as [|l ls IH]; intros n F L; (destruct n as [|n]; [cbn [length] in L; lia|]); [reflexivity|].
  inversion_clear F as [|? ? P F']. cbn [map conversation filter]. unfold typed at 1.
  rewrite readLine_lost; [|exact P|unfold zlen; rewrite app_length; cbn [length]; destruct P as (_ & _ & P); unfold zlen in P; lia].
  cbn [length] in L. rewrite (IH n F' ltac:(lia)). destruct l; reflexivity.
Qed.
(* It makes no difference in how many reads one line comes. *)
Lemma slice_pieces l i : ~ In 10 l -> zlen l < 4096 -> forall ps buf, Forall (fun p => p <> []) ps -> buf ++ concat ps = typed l -> readSlice buf (ps ++ i) = (Line (typed l), i).
Proof.
  intros N10 L. assert (L' : (length (typed l) <= room)%nat) by (unfold typed; rewrite app_length; unfold zlen in L; cbn [length]; unfold room; lia).
  induction ps as [|p ps IH]; intros buf F E.
  - cbn [concat app] in E |- *. rewrite app_nil_r in E. subst buf. assert (U : upto_newline (typed l) = Some (typed l)) by (apply upto_typed; exact N10).
    destruct i; cbn [readSlice]; now rewrite U.
  - inversion_clear F as [|? ? NP F']. cbn [app readSlice]. cbn [concat] in E.
    assert (NB : ~ In 10 buf).
    { intros X. assert (T : exists t, p ++ concat ps = t ++ [10]).
      { destruct (exists_last (l := p ++ concat ps)) as (t & z & ET); [intros Y; apply app_eq_nil in Y; destruct Y; contradiction|].
        exists t. rewrite ET in E |- *. unfold typed in E. rewrite app_assoc in E. apply app_inj_tail in E. destruct E as [_ ->]. reflexivity. }
      destruct T as [t ET]. rewrite ET, app_assoc in E. unfold typed in E. apply app_inj_tail in E. destruct E as [E _]. apply N10. rewrite <- E. apply in_or_app. now left. }
    rewrite upto_none by exact NB. apply (f_equal (@length Z)) in E as EL. rewrite !app_length in EL.
    assert (LP : (0 < length p)%nat) by (destruct p; [now elim NP|cbn [length]; lia]).
    replace (room <=? length buf)%nat with false by (symmetry; apply Nat.leb_gt; lia).
    replace (length p <=? room - length buf)%nat with true by (symmetry; apply Nat.leb_le; lia).
    apply IH; [exact F'|]. now rewrite <- app_assoc.
Qed.
Theorem C216_pieces : forall l ps i, plain_line l -> Forall (fun p => p <> []) ps -> concat ps = typed l -> readLine (ps ++ i) = (Some l, i).
Proof.
  intros l ps i (N10 & N13 & L) F E. unfold readLine. rewrite (slice_pieces l i N10 L ps [] F E). now rewrite chop_typed by exact N13.
Qed.
(* FALSE of a pipe: of what one read gives, only the first line is sent. *)
Theorem C216_lost : forall l more i n, plain_line l -> l <> [] -> zlen (l ++ 10 :: more) <= 4096 ->
  conversation (S n) ((l ++ 10 :: more) :: i) = option_map (cons l) (conversation n i).
Proof. intros l more i n P N LB. cbn [conversation]. rewrite readLine_lost by assumption. destruct l; [now elim N|reflexivity]. Qed.
Theorem C216_sent_refuted : exists l1 l2 n, plain_line l1 /\ plain_line l2 /\ l1 <> [] /\ l2 <> [] /\
  conversation n [typed l1 ++ typed l2] = Some [l1].
Proof.
  exists [104; 105], [121; 111], 5%nat. split; [split; [cbn; lia|split; [cbn; lia|reflexivity]]|]. split; [split; [cbn; lia|split; [cbn; lia|reflexivity]]|].
  split; [discriminate|]. split; [discriminate|]. reflexivity.
Qed.
(* The same reading answers the questions of the registration: the answer to the second is lost and the program ends. *)
Theorem C216_answers_refuted : exists a1 a2, plain_line a1 /\ plain_line a2 /\
  let (x, r) := readLine [typed a1 ++ typed a2] in x = Some a1 /\ fst (readLine r) = None.
Proof.
  exists [43; 49], [49; 50; 51]. split; [split; [cbn; lia|split; [cbn; lia|reflexivity]]|]. split; [split; [cbn; lia|split; [cbn; lia|reflexivity]]|].
  vm_compute. split; reflexivity.
Qed.
(* A line for which there is no room is sent in pieces. *)
Theorem C216_long : forall l i n, ~ In 10 l -> ~ In 13 l -> 4096 < zlen l ->
  conversation (S n) (typed l :: i) = option_map (cons (firstn (Z.to_nat 4096) l)) (conversation n (typed (skipn (Z.to_nat 4096) l) :: i)).
Proof.
  intros l i n N10 N13 L0. change (Z.to_nat 4096) with room. assert (L : (room < length l)%nat) by (unfold zlen in L0; unfold room; lia). cbn [conversation].
  assert (E : readLine (typed l :: i) = (Some (firstn room l), typed (skipn room l) :: i)).
  { assert (NF : forall x, ~ In x l -> ~ In x (firstn room l)) by (intros x N X; apply N; rewrite <- (firstn_skipn room l); apply in_or_app; now left).
    unfold readLine. cbn [readSlice]. cbn [upto_newline].
    change (length (@nil Z)) with 0%nat. replace (room <=? 0)%nat with false by (symmetry; apply Nat.leb_gt; unfold room; lia).
    rewrite Nat.sub_0_r, app_nil_l. unfold typed at 1. rewrite app_length. cbn [length].
    replace (length l + 1 <=? room)%nat with false by (symmetry; apply Nat.leb_gt; lia).
    assert (F1 : firstn room (typed l) = firstn room l) by (unfold typed; rewrite firstn_app; replace (room - length l)%nat with 0%nat by lia; cbn [firstn]; now rewrite app_nil_r).
    assert (F2 : skipn room (typed l) = typed (skipn room l)) by (unfold typed; rewrite skipn_app; replace (room - length l)%nat with 0%nat by lia; reflexivity).
    rewrite F1, F2, upto_none by (apply NF; exact N10). rewrite no_return by (apply NF; exact N13). reflexivity. }
  rewrite E. destruct (firstn room l) as [|c r] eqn:EF; [|reflexivity].
  exfalso. apply (f_equal (@length Z)) in EF. rewrite firstn_length in EF. cbn [length] in EF. unfold room in *. lia.
Qed.
(* And when the input ends, the program ends, and receives no more. *)
Lemma slice_end i : forall buf, (exists r, readSlice buf i = (Eof [], r)) <-> buf = [] /\ concat i = [].
Proof.
  induction i as [|c i IH]; intros buf; cbn [readSlice concat].
  - split.
    + intros [r H]. destruct (upto_newline buf); [discriminate H|]. destruct (_ <=? _)%nat; [discriminate H|]. injection H as H _. auto.
    + intros [-> _]. exists []. reflexivity.
  - split.
    + intros [r H]. destruct (upto_newline buf) eqn:U; [discriminate H|]. destruct (room <=? length buf)%nat; [discriminate H|].
      destruct (length c <=? room - length buf)%nat.
      * destruct (proj1 (IH (buf ++ c)) (ex_intro _ r H)) as [E1 E2]. apply app_eq_nil in E1. destruct E1 as [-> ->]. rewrite E2. auto.
      * destruct (upto_newline (buf ++ firstn (room - length buf) c)); discriminate H.
    + intros [-> E]. apply app_eq_nil in E. destruct E as [-> E]. cbn [upto_newline]. destruct (proj2 (IH []) (conj eq_refl E)) as [r H]. exists r. exact H.
Qed.
Theorem C216_ends : forall i, fst (readLine i) = None <-> concat i = [].
Proof.
  intros i. unfold readLine. split; intros H.
  - destruct (readSlice [] i) as [[l|b|[|c b]] r] eqn:E; try discriminate H. apply (slice_end i []). eauto.
  - destruct (proj2 (slice_end i []) (conj eq_refl H)) as [r E]. rewrite E. reflexivity.
Qed.
Lemma slice_less i : forall buf s r, readSlice buf i = (s, r) ->
  (length (concat r) <= length (concat i))%nat /\ (upto_newline buf = None -> (length buf < room)%nat -> concat i <> [] -> (length (concat r) < length (concat i))%nat).
Proof.
  induction i as [|c i IH]; intros buf s r H; cbn [readSlice] in H.
  - split; [|intros _ _ N; now elim N]. destruct (upto_newline buf); [injection H as _ <-; lia|]. destruct (_ <=? _)%nat; injection H as _ <-; lia.
  - destruct (upto_newline buf) eqn:UB; [injection H as _ <-; split; [lia|discriminate]|].
    destruct (room <=? length buf)%nat eqn:EB; [injection H as _ <-; apply Nat.leb_le in EB; split; lia|]. apply Nat.leb_gt in EB.
    destruct (length c <=? room - length buf)%nat eqn:EC.
    + apply Nat.leb_le in EC. destruct (IH _ _ _ H) as [I1 I2]. cbn [concat]. rewrite app_length. split; [lia|]. intros U _ N.
      destruct c as [|x c]; [|cbn [length]; lia]. rewrite app_nil_r in I2. cbn [length app] in *. specialize (I2 UB EB N). lia.
    + apply Nat.leb_gt in EC. apply (f_equal snd) in H. cbn [snd] in H. rewrite <- H. cbn [concat]. rewrite !app_length, skipn_length. clear - EB EC. split; lia.
Qed.
Theorem C216_always_ends : forall i, exists sent, conversation (S (length (concat i))) i = Some sent.
Proof.
  assert (G : forall n i, (length (concat i) < n)%nat -> exists sent, conversation n i = Some sent).
  { induction n as [|n IH]; intros i L; [lia|]. cbn [conversation]. destruct (readLine i) as [o r] eqn:E. destruct o as [l|]; [|eauto].
    assert (N : concat i <> []) by (intros X; apply C216_ends in X; rewrite E in X; discriminate X).
    assert (R : (length (concat r) < length (concat i))%nat).
    { unfold readLine in E. destruct (readSlice [] i) as [s r'] eqn:ES. destruct (slice_less i [] s r' ES) as [_ S2].
      specialize (S2 eq_refl ltac:(cbn; unfold room; lia) N). destruct s as [x|x|x]; [injection E as _ <-; exact S2|injection E as _ <-; exact S2|].
      destruct x; injection E as _ <-; exact S2. }
    destruct (IH r ltac:(lia)) as [sent H]. rewrite H. destruct l; eexists; reflexivity. }
  intros i. apply G. lia.
Qed.
Print Assumptions C215_echo.
Print Assumptions C215_echo_direct_partial.
Print Assumptions C215_to_nobody.
Print Assumptions C215_sealed_unanswered.
Print Assumptions C215_echo_refuted.
Print Assumptions C215_conversations.
Print Assumptions C215_one_conversation_partial.
Print Assumptions C215_one_conversation_refuted.
Print Assumptions C216_typed_partial.
Print Assumptions C216_pieces.
Print Assumptions C216_lost.
Print Assumptions C216_sent_refuted.
Print Assumptions C216_answers_refuted.
Print Assumptions C216_long.
Print Assumptions C216_ends.
Print Assumptions C216_always_ends.

(* Examples: an unsealed message of no group, answered to the one who wrote it; a program that hears two sealed messages and then one
   that is not; two lines and an empty one typed, and the same piped *)
Example C215_example : let m s u := mkMsg s u [104; 105] [] None 0 0 None 7 None [] None None in
  snd (messageHandler ex_echo (cmsg_of (m [117] [117])) []) = [Sent false [117] [104; 105]] /\
  expected [m [] [97]; m [] [98]; m [117] [117]; m [] [97]] = [[]; []; [117]] /\
  fst (messages (mkFlags false [] true false) (map cmsg_of [m [] [97]; m [] [98]; m [117] [117]; m [] [97]]) []) = [117].
Proof. cbv zeta. split; [reflexivity|]. split; reflexivity. Qed.
Example C216_example : Forall plain_line [[104; 105]; []; [121; 111]] /\
  conversation 9 (map typed [[104; 105]; []; [121; 111]]) = Some [[104; 105]; [121; 111]] /\
  conversation 9 [concat (map typed [[104; 105]; []; [121; 111]])] = Some [[104; 105]] /\
  conversation 9 [[104]; [105; 10]; [13; 10]; [121; 111; 13; 10]; [98]] = Some [[104; 105]; [121; 111]; [98]].
Proof.
  split; [|split; [reflexivity|split; reflexivity]].
  repeat (constructor; [split; [cbn; lia|split; [cbn; lia|reflexivity]]|]). constructor.
Qed.
