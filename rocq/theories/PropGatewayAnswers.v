(* C218: the gateway tells its callers what happened. *)
From Coq Require Import String Ascii ZArith List Lia Bool.
From Verif Require Import Bytes Res Gateway GatewayAnswers Json.
Import ListNotations.
Open Scope Z_scope.

(* texts of the statements *)
Fixpoint txt (s : string) : bytes := match s with EmptyString => [] | String c r => Z.of_nat (nat_of_ascii c) :: txt r end.
(* what a caller is told: success, or an error and perhaps its text *)
Definition told_ok : json := Jo [(txt "success", Jb true)].
Definition told_no : json := Jo [(txt "success", Jb false)].
Definition told (e : bytes) : json := Jo [(txt "success", Jb false); (txt "error", Js e)].
(* texts that need no escaping *)
Definition plain (b : bytes) : Prop := Forall (fun c => 32 <= c /\ c <> 34 /\ c <> 92) b.

Lemma str_plain e rest : plain e -> str (e ++ 34 :: rest) = Some (e, rest).
Proof.
  induction e as [|c e IH]; intros P; cbn [app str]; [reflexivity|]. apply Forall_cons_iff in P. destruct P as ((H1 & H2 & H3) & P).
  destruct (Z.eqb_spec c 34); [contradiction|]. destruct (Z.eqb_spec c 92); [contradiction|]. destruct (Z.ltb_spec c 32); [lia|].
  rewrite (IH P). reflexivity.
Qed.

Lemma read_error n x : value (S (S (S (S n)))) (b_error ++ x) =
  match str x with
  | Some (s, r) => match is_at 44 (ws r), is_at 125 (ws r) with
                   | Some r4, _ => option_map (fun y => (Jo ((txt "success", Jb false) :: (txt "error", Js s) :: fst y), snd y)) (members (S n) r4)
                   | None, Some r4 => Some (told s, r4)
                   | None, None => None
                   end
  | None => None
  end.
Proof.
  change (b_error ++ x) with (123 :: 34 :: (txt "success" ++ 34 :: 58 :: 32 :: txt "false" ++ 44 :: 32 :: 34 :: (txt "error" ++ 34 :: 58 :: 32 :: 34 :: x))).
  set (t2 := txt "error" ++ 34 :: 58 :: 32 :: 34 :: x).
  set (t1 := txt "success" ++ 34 :: 58 :: 32 :: txt "false" ++ 44 :: 32 :: 34 :: t2).
  change (value (S (S (S (S n)))) (123 :: 34 :: t1)) with (option_map (fun y => (Jo (fst y), snd y)) (members (S (S (S n))) (34 :: t1))).
  change (members (S (S (S n))) (34 :: t1)) with (match str t1 with None => None | Some (k, r1) =>
    match is_at 58 (ws r1) with None => None | Some r2 => match value (S (S n)) r2 with None => None | Some (v, r3) =>
      match is_at 44 (ws r3), is_at 125 (ws r3) with
      | Some r4, _ => option_map (fun x => ((k, v) :: fst x, snd x)) (members (S (S n)) r4)
      | None, Some r4 => Some ([(k, v)], r4) | None, None => None end end end end).
  unfold t1 at 1. rewrite str_plain by (repeat (apply Forall_cons; [cbn; lia|]); apply Forall_nil).
  change (is_at 58 (ws (58 :: 32 :: txt "false" ++ 44 :: 32 :: 34 :: t2))) with (Some (32 :: txt "false" ++ 44 :: 32 :: 34 :: t2)). cbv iota.
  change (value (S (S n)) (32 :: txt "false" ++ 44 :: 32 :: 34 :: t2)) with (Some (Jb false, 44 :: 32 :: 34 :: t2)). cbv iota beta.
  change (is_at 44 (ws (44 :: 32 :: 34 :: t2))) with (Some (32 :: 34 :: t2)). cbv iota.
  change (members (S (S n)) (32 :: 34 :: t2)) with (match str t2 with None => None | Some (k, r1) =>
    match is_at 58 (ws r1) with None => None | Some r2 => match value (S n) r2 with None => None | Some (v, r3) =>
      match is_at 44 (ws r3), is_at 125 (ws r3) with
      | Some r4, _ => option_map (fun x => ((k, v) :: fst x, snd x)) (members (S n) r4)
      | None, Some r4 => Some ([(k, v)], r4) | None, None => None end end end end).
  unfold t2 at 1. rewrite str_plain by (repeat (apply Forall_cons; [cbn; lia|]); apply Forall_nil).
  change (is_at 58 (ws (58 :: 32 :: 34 :: x))) with (Some (32 :: 34 :: x)). cbv iota.
  change (value (S n) (32 :: 34 :: x)) with (option_map (fun y => (Js (fst y), snd y)) (str x)).
  destruct (str x) as [[s r]|]; cbn [option_map fst snd]; [|reflexivity].
  destruct (is_at 44 (ws r)) as [r4|].
  - destruct (members (S n) r4) as [[y z]|]; reflexivity.
  - destruct (is_at 125 (ws r)); reflexivity.
Qed.

(* more fuel gives the same *)
Lemma value_more : forall n,
  (forall b x, value n b = Some x -> value (S n) b = Some x) /\
  (forall b x, members n b = Some x -> members (S n) b = Some x) /\
  (forall b x, elements n b = Some x -> elements (S n) b = Some x).
Proof.
  induction n as [|n (IV & IM & IE)]; [split; [|split]; intros b x H; discriminate H|]. split; [|split]; intros b x H.
  - cbn [value] in H. change (value (S (S n)) b) with (match is_at 123 (ws b), is_at 91 (ws b), is_at 34 (ws b) with
      | Some r, _, _ => match is_at 125 (ws r) with Some r1 => Some (Jo [], r1) | None => option_map (fun x => (Jo (fst x), snd x)) (members (S n) r) end
      | None, Some r, _ => match is_at 93 (ws r) with Some r1 => Some (Ja [], r1) | None => option_map (fun x => (Ja (fst x), snd x)) (elements (S n) r) end
      | None, None, Some r => option_map (fun x => (Js (fst x), snd x)) (str r)
      | None, None, None => scalar (ws b) end).
    destruct (is_at 123 (ws b)) as [r|].
    { destruct (is_at 125 (ws r)); [exact H|]. destruct (members n r) as [y|] eqn:E; [|discriminate H]. rewrite (IM _ _ E). exact H. }
    destruct (is_at 91 (ws b)) as [r|]; [|exact H].
    destruct (is_at 93 (ws r)); [exact H|]. destruct (elements n r) as [y|] eqn:E; [|discriminate H]. rewrite (IE _ _ E). exact H.
  - cbn [members] in H. change (members (S (S n)) b) with (match is_at 34 (ws b) with None => None | Some r => match str r with None => None | Some (k, r1) =>
      match is_at 58 (ws r1) with None => None | Some r2 => match value (S n) r2 with None => None | Some (v, r3) =>
      match is_at 44 (ws r3), is_at 125 (ws r3) with
      | Some r4, _ => option_map (fun x => ((k, v) :: fst x, snd x)) (members (S n) r4)
      | None, Some r4 => Some ([(k, v)], r4) | None, None => None end end end end end).
    destruct (is_at 34 (ws b)) as [r|]; [|exact H]. destruct (str r) as [[k r1]|]; [|exact H]. destruct (is_at 58 (ws r1)) as [r2|]; [|exact H].
    destruct (value n r2) as [[v r3]|] eqn:E; [|discriminate H]. rewrite (IV _ _ E). destruct (is_at 44 (ws r3)) as [r4|]; [|exact H].
    destruct (members n r4) as [y|] eqn:E2; [|discriminate H]. rewrite (IM _ _ E2). exact H.
  - cbn [elements] in H. change (elements (S (S n)) b) with (match value (S n) b with None => None | Some (v, r) =>
      match is_at 44 (ws r), is_at 93 (ws r) with
      | Some r1, _ => option_map (fun x => (v :: fst x, snd x)) (elements (S n) r1)
      | None, Some r1 => Some ([v], r1) | None, None => None end end).
    destruct (value n b) as [[v r]|] eqn:E; [|discriminate H]. rewrite (IV _ _ E). destruct (is_at 44 (ws r)) as [r1|]; [|exact H].
    destruct (elements n r1) as [y|] eqn:E2; [|discriminate H]. rewrite (IE _ _ E2). exact H.
Qed.
Lemma value_add k : forall n b x, value n b = Some x -> value (k + n) b = Some x.
Proof. induction k as [|k IH]; intros n b x H; [exact H|]. apply (proj1 (value_more (k + n))), IH, H. Qed.
(* a text stands for one value *)
Lemma reads_one b v w : reads_as b v -> reads_as b w -> v = w.
Proof.
  intros (n & r & H & _) (m & r' & H' & _). apply (value_add m) in H. apply (value_add n) in H'. rewrite Nat.add_comm in H'. congruence.
Qed.
Lemma read_one n b v r : value n b = Some (v, r) -> ws r = [] -> reads_as b v.
Proof. intros H W. exists n, r. split; assumption. Qed.
Lemma reads_plain e : plain e -> reads_as (b_error ++ e ++ b_end) (told e).
Proof.
  intros P. apply (read_one 4 _ _ []); [|reflexivity]. rewrite read_error. change b_end with (34 :: [125]). rewrite (str_plain e [125] P). reflexivity.
Qed.

(* ------------------------------------------------------------------------------------------ *)
(* C218. The status says whether everything was done that was asked for: it is 200 exactly if the request is one of those
   that C154 calls successful, and 500 otherwise. *)
Theorem C218_status : forall out open_error can_open removable u t t' h ok,
  GatewayHandler (outcome out) can_open removable u t = (t', h, ok) ->
  fst (gateway_answer out open_error can_open u t) = if ok then 200 else 500.
Proof.
  intros out open_error can_open removable u t t' h ok. unfold GatewayHandler, gateway_answer. destruct (negb (u_post u)); [intros H; injection H as _ _ <-; reflexivity|].
  destruct (match u_file u with Some (n, b) => if can_open n then (twrite n (overwrite b (tread n t)) t, Some n) else (t, None) | None => (t, None) end) as [t1 fn].
  destruct (u_text u) as [|c s]; [intros H; injection H as _ _ <-; reflexivity|].
  destruct (u_to u) as [|d s']; [intros H; injection H as _ _ <-; reflexivity|].
  unfold GatewaySend, send_text, outcome. destruct fn as [n|].
  - destruct (tread n t1) as [b|]; [|intros H; injection H as _ _ <-; reflexivity].
    destruct (out (mkHanded (is_group (d :: s')) (d :: s') (c :: s) (Some b))); intros H; injection H as _ _ <-; reflexivity.
  - destruct (out (mkHanded (is_group (d :: s')) (d :: s') (c :: s) None)); intros H; injection H as _ _ <-; reflexivity.
Qed.
Print Assumptions C218_status.
Theorem C218_status_json : forall out field body to h ok, JSONHandler (outcome out) body to = Ok (h, ok) ->
  exists b, json_answer out field body to = Ok (if ok then 200 else 500, b).
Proof.
  intros out field body to h ok. destruct body as [[| |s|]|]; cbn [JSONHandler json_answer].
  1,2,5: intros H; injection H as _ <-; eexists; reflexivity.
  2: intros H; discriminate H.
  unfold GatewaySend, send_text, outcome. destruct (out (mkHanded (is_group to) to s None)); intros H; injection H as _ <-; eexists; reflexivity.
Qed.
Print Assumptions C218_status_json.

(* an answer that says what the status says, and e if there is an error with a text *)
Definition says (a : Z * bytes) (e : option bytes) : Prop :=
  (a = (200, snd a) /\ e = None /\ reads_as (snd a) told_ok) \/
  (a = (500, snd a) /\ (e = None /\ reads_as (snd a) told_no \/ exists x, e = Some x /\ reads_as (snd a) (told x))).
Lemma reads_true : reads_as b_true told_ok.
Proof. apply (read_one 4 _ _ []); reflexivity. Qed.
Lemma reads_false : reads_as b_false told_no.
Proof. apply (read_one 4 _ _ []); reflexivity. Qed.
Lemma says_report x : (forall e, x = Some e -> plain e) -> says (report x) x.
Proof.
  intros P. destruct x as [e|]; cbn [report].
  - right. split; [reflexivity|]. right. exists e. split; [reflexivity|]. apply reads_plain, P. reflexivity.
  - left. split; [reflexivity|]. split; [reflexivity|]. apply reads_true.
Qed.
Definition plainb (b : bytes) : bool := forallb (fun c => (32 <=? c) && negb (c =? 34) && negb (c =? 92)) b.
Lemma plainb_ok b : plainb b = true -> plain b.
Proof.
  unfold plainb, plain. rewrite forallb_forall, Forall_forall. intros H c Hc. specialize (H c Hc). apply andb_prop in H. destruct H as [H H3].
  apply andb_prop in H. destruct H as [H1 H2]. apply Z.leb_le in H1. apply negb_true_iff, Z.eqb_neq in H2. apply negb_true_iff, Z.eqb_neq in H3. lia.
Qed.
Lemma plain_app a b : plain a -> plain b -> plain (a ++ b).
Proof. intros H1 H2. apply Forall_app. split; assumption. Qed.
Lemma trim_left_plain b : plain b -> trim_left b = b.
Proof. destruct b as [|c r]; [reflexivity|]. intros H. apply Forall_cons_iff in H. cbn [trim_left]. destruct (Z.eqb_spec c 10); [lia|reflexivity]. Qed.
Lemma trim_line e : plain e -> trim (e ++ [10]) = e.
Proof.
  intros P. unfold trim. destruct e as [|c r]; [reflexivity|]. cbn [app trim_left]. pose proof P as Q. apply Forall_cons_iff in Q. destruct (Z.eqb_spec c 10); [lia|].
  change (c :: r ++ [10]) with ((c :: r) ++ [10]). rewrite rev_app_distr. cbn [rev app trim_left Z.eqb Pos.eqb].
  change (rev r ++ [c]) with (rev (c :: r)). rewrite trim_left_plain; [apply rev_involutive|]. apply Forall_rev, P.
Qed.
Lemma trim_plain e : plain e -> trim e = e.
Proof. intros P. unfold trim. rewrite (trim_left_plain e P), trim_left_plain by (apply Forall_rev, P). apply rev_involutive. Qed.

(* C218. If the errors of sending are texts without quotation marks, backslashes and control characters, perhaps with a newline
   at the end, and the recipient is named so, every answer is JSON that says success or failure as the status does, and why. *)
Definition plain_line (e : bytes) : Prop := exists p, plain p /\ (e = p \/ e = p ++ [10]).
Lemma error_plain to e : plain to -> plain_line e -> plain (error_text to e).
Proof.
  intros T (p & P & H). unfold error_text. destruct (contains s_413 e); [apply plainb_ok; reflexivity|].
  destruct (says_untrusted e); [apply plain_app; [apply plainb_ok; reflexivity|apply plain_app; [exact T|apply plainb_ok; reflexivity]]|].
  destruct H as [-> | ->]; [rewrite trim_plain|rewrite trim_line]; exact P.
Qed.
Theorem C218_gateway_partial : forall out open_error can_open u t, (forall h e, out h = Some e -> plain_line e) -> (forall n, plain (open_error n)) ->
  plain (u_to u) -> exists e, says (gateway_answer out open_error can_open u t) e.
Proof.
  intros out open_error can_open u t PO PE PT. unfold gateway_answer. destruct (negb (u_post u)).
  { exists None. right. split; [reflexivity|]. left. split; [reflexivity|apply reads_false]. }
  destruct (match u_file u with Some (n, b) => if can_open n then (twrite n (overwrite b (tread n t)) t, Some n) else (t, None) | None => (t, None) end) as [t1 fn].
  assert (R : says (500, b_error ++ s_required ++ b_end) (Some s_required)).
  { right. split; [reflexivity|]. right. eexists. split; [reflexivity|]. apply reads_plain, plainb_ok. reflexivity. }
  destruct (u_text u) as [|c s]; [eexists; exact R|]. destruct (u_to u) as [|d s']; [eexists; exact R|].
  eexists. apply says_report. intros e H. unfold send_text in H.
  assert (K : forall h, option_map (error_text (d :: s')) (out h) = Some e -> plain e).
  { intros h X. destruct (out h) as [x|] eqn:E; [|discriminate X]. injection X as <-. apply error_plain; [exact PT|exact (PO h x E)]. }
  destruct fn as [n|]; [destruct (tread n t1)|]; [eapply K; exact H|injection H as <-; apply PE|eapply K; exact H].
Qed.
Print Assumptions C218_gateway_partial.
Theorem C218_json_partial : forall out field body to a, (forall h e, out h = Some e -> plain_line e) -> plain field -> plain to ->
  json_answer out field body to = Ok a -> exists e, says a e.
Proof.
  intros out field body to a PO PF PT H.
  assert (E0 : reads_as (b_error ++ s_empty ++ field ++ b_end) (told (s_empty ++ field))).
  { rewrite (app_assoc s_empty). apply reads_plain, plain_app; [apply plainb_ok; reflexivity|exact PF]. }
  destruct body as [[| |s|]|]; cbn [json_answer] in H.
  1,2: injection H as <-; exists (Some (s_empty ++ field)); right; split; [reflexivity|]; right; eexists; split; [reflexivity|exact E0].
  2: discriminate H.
  - injection H as <-. eexists. apply says_report. intros e X. unfold send_text in X.
    destruct (out (mkHanded (is_group to) to s None)) as [x|] eqn:E; [|discriminate X]. injection X as <-. apply error_plain; [exact PT|exact (PO _ x E)].
  - injection H as <-. exists None. right. split; [reflexivity|]. left. split; [reflexivity|apply reads_false].
Qed.
Print Assumptions C218_json_partial.
(* the answers about identities are always so *)
Theorem C218_rekey : forall removed d id, exists e, says (rekey_answer removed d id) e /\
  (fst (rekey_answer removed d id) = 200 <-> exists p, RekeyHandler d id = Some p /\ removed p = true).
Proof.
  intros removed d id. unfold rekey_answer. destruct (RekeyHandler d id) as [p|] eqn:E.
  2:{ exists None. split; [right; split; [reflexivity|left; split; [reflexivity|apply reads_false]]|]. split; [intros H; discriminate H|intros (p & X & _); discriminate X]. }
  destruct (removed p) eqn:R.
  { exists None. split; [left; split; [reflexivity|split; [reflexivity|apply reads_true]]|]. split; [intros _; exists p; split; [reflexivity|exact R]|reflexivity]. }
  exists (Some (s_ident ++ id ++ s_notfound)). split.
  - right. split; [reflexivity|]. right. eexists. split; [reflexivity|].
    assert (Q : s_ident ++ id ++ s_notfound ++ b_end = (s_ident ++ id ++ s_notfound) ++ b_end) by (rewrite !app_assoc; reflexivity).
    change (reads_as (b_error ++ s_ident ++ id ++ s_notfound ++ b_end) (told (s_ident ++ id ++ s_notfound))). rewrite Q. apply reads_plain. apply plain_app; [apply plainb_ok; reflexivity|]. apply plain_app; [|apply plainb_ok; reflexivity].
    unfold RekeyHandler in E. destruct (d && forallb digit10 id) eqn:D; [|discriminate E]. apply andb_prop in D. destruct D as [_ D].
    rewrite forallb_forall in D. apply Forall_forall. intros c Hc. specialize (D c Hc). unfold digit10 in D. apply andb_prop in D. destruct D as [D1 D2].
    apply Z.leb_le in D1. apply Z.leb_le in D2. lia.
  - split; [intros H; discriminate H|]. intros (q & X & Y). injection X as <-. congruence.
Qed.
Print Assumptions C218_rekey.

(* C218. An answer that the server is overloaded is passed on in words, whatever else the error says ... *)
Lemma has_prefix_app p b : has_prefix p (p ++ b) = true.
Proof. induction p as [|c p IH]; [reflexivity|]. cbn [app has_prefix]. rewrite Z.eqb_refl, IH. reflexivity. Qed.
Lemma contains_app p a b : contains p (a ++ p ++ b) = true.
Proof.
  induction a as [|c a IH]; cbn [app].
  - pose proof (has_prefix_app p b) as H. destruct (p ++ b) as [|x r]; cbn [contains]; rewrite H; reflexivity.
  - cbn [contains]. rewrite IH. apply orb_true_r.
Qed.
Theorem C218_overload : forall out field s to a b, out (mkHanded (is_group to) to s None) = Some (a ++ txt "status code 413" ++ b) ->
  exists body, json_answer out field (Some (JText s)) to = Ok (500, body) /\ reads_as body (told (txt "signal api rate limit reached")).
Proof.
  intros out field s to a b H. cbn [json_answer]. unfold send_text. rewrite H. cbn [option_map report]. eexists. split; [reflexivity|].
  unfold error_text. change (txt "status code 413") with s_413. rewrite contains_app.
  change (txt "signal api rate limit reached") with s_limit. apply reads_plain, plainb_ok. reflexivity.
Qed.
Print Assumptions C218_overload.
(* Requests that lack something are told what: a field, an item, an identity. *)
Theorem C218_reasons : forall out open_error can_open removed u t field to id p,
  (u_post u = true -> u_text u = [] \/ u_to u = [] -> exists body, gateway_answer out open_error can_open u t = (500, body) /\
     reads_as body (told (txt "form fields message and to are required"))) /\
  (plain field -> forall b, b = Some JAbsent \/ b = Some JNull -> exists body, json_answer out field b to = Ok (500, body) /\
     reads_as body (told (txt "json request contains empty item " ++ field))) /\
  (RekeyHandler true id = Some p -> removed p = false -> exists body, rekey_answer removed true id = (500, body) /\
     reads_as body (told (txt "identity " ++ id ++ txt " not found"))).
Proof.
  intros out open_error can_open removed u t field to id p. split; [|split].
  - intros P E. unfold gateway_answer. rewrite P. cbn [negb].
    destruct (match u_file u with Some (n, b) => if can_open n then (twrite n (overwrite b (tread n t)) t, Some n) else (t, None) | None => (t, None) end) as [t1 fn].
    exists (b_error ++ s_required ++ b_end). split.
    + destruct E as [-> | ->]; [reflexivity|]. destruct (u_text u); reflexivity.
    + change (txt "form fields message and to are required") with s_required. apply reads_plain, plainb_ok. reflexivity.
  - intros PF b E. exists (b_error ++ s_empty ++ field ++ b_end). split; [destruct E as [-> | ->]; reflexivity|].
    change (txt "json request contains empty item ") with s_empty. rewrite (app_assoc s_empty). apply reads_plain, plain_app; [apply plainb_ok; reflexivity|exact PF].
  - intros R F. unfold rekey_answer. rewrite R, F. eexists. split; [reflexivity|].
    change (txt "identity ") with s_ident. change (txt " not found") with s_notfound.
    replace (s_ident ++ id ++ s_notfound ++ b_end) with ((s_ident ++ id ++ s_notfound) ++ b_end) by (rewrite <- !app_assoc; reflexivity).
    apply reads_plain, plain_app; [apply plainb_ok; reflexivity|]. apply plain_app; [|apply plainb_ok; reflexivity].
    unfold RekeyHandler in R. cbn [andb] in R. destruct (forallb digit10 id) eqn:D; [|discriminate R].
    rewrite forallb_forall in D. apply Forall_forall. intros c Hc. specialize (D c Hc). unfold digit10 in D. apply andb_prop in D. destruct D as [D1 D2].
    apply Z.leb_le in D1. apply Z.leb_le in D2. lia.
Qed.
Print Assumptions C218_reasons.
(* Every other error is passed on in its own words, without line ends around it. *)
Lemma has_prefix_inv p : forall b, has_prefix p b = true -> exists c, b = p ++ c.
Proof.
  induction p as [|x p IH]; intros b H; [exists b; reflexivity|]. destruct b as [|y b]; cbn [has_prefix] in H; [discriminate H|].
  apply andb_prop in H. destruct H as [H1 H2]. apply Z.eqb_eq in H1. subst y. destruct (IH b H2) as (c & ->). exists c. reflexivity.
Qed.
Lemma contains_inv p b : contains p b = true -> exists a c, b = a ++ p ++ c.
Proof.
  induction b as [|y b IH]; cbn [contains]; intros H; apply orb_true_iff in H; destruct H as [H|H].
  - apply has_prefix_inv in H. destruct H as (c & H). exists [], c. exact H.
  - discriminate H.
  - apply has_prefix_inv in H. destruct H as (c & H). exists [], c. exact H.
  - destruct (IH H) as (a & c & ->). exists (y :: a), c. reflexivity.
Qed.
Lemma digits_inv b : digits_untrusted b = true -> exists d c, forallb digit10 d = true /\ b = d ++ s_untrusted ++ c.
Proof.
  induction b as [|y b IH]; [intros H; discriminate H|]. change (digits_untrusted (y :: b)) with (if digit10 y then digits_untrusted b else has_prefix s_untrusted (y :: b)).
  destruct (digit10 y) eqn:D; intros H.
  - destruct (IH H) as (d & c & Hd & ->). exists (y :: d), c. split; [cbn [forallb]; now rewrite D|reflexivity].
  - apply has_prefix_inv in H. destruct H as (c & H). exists [], c. split; [reflexivity|exact H].
Qed.
Lemma untrusted_inv b : says_untrusted b = true -> exists a d c, d <> [] /\ forallb digit10 d = true /\ b = a ++ s_remote ++ d ++ s_untrusted ++ c.
Proof.
  assert (H0 : forall b, here_untrusted b = true -> exists a d c, d <> [] /\ forallb digit10 d = true /\ b = a ++ s_remote ++ d ++ s_untrusted ++ c).
  { intros l H. unfold here_untrusted in H. apply andb_prop in H. destruct H as [P H]. apply has_prefix_inv in P. destruct P as (c & ->).
    rewrite skipn_app, skipn_all, Nat.sub_diag in H. cbn [skipn app] in H. destruct c as [|y r]; [discriminate H|].
    apply andb_prop in H. destruct H as [D H]. apply digits_inv in H. destruct H as (d & c & Hd & ->).
    exists [], (y :: d), c. split; [discriminate|]. split; [cbn [forallb]; now rewrite D|reflexivity]. }
  induction b as [|y b IH]; cbn [says_untrusted]; intros H; apply orb_true_iff in H; destruct H as [H|H].
  - apply H0, H.
  - discriminate H.
  - apply H0, H.
  - destruct (IH H) as (a & d & c & N & Hd & ->). exists (y :: a), d, c. split; [exact N|]. split; [exact Hd|reflexivity].
Qed.
Theorem C218_other_errors : forall out field s to e, out (mkHanded (is_group to) to s None) = Some e -> plain e ->
  ~ (exists a b, e = a ++ txt "status code 413" ++ b) ->
  ~ (exists a d b, d <> [] /\ forallb digit10 d = true /\ e = a ++ txt "remote identity " ++ d ++ txt " is not trusted" ++ b) ->
  exists body, json_answer out field (Some (JText s)) to = Ok (500, body) /\ reads_as body (told e).
Proof.
  intros out field s to e H P N1 N2. cbn [json_answer]. unfold send_text. rewrite H. cbn [option_map report]. eexists. split; [reflexivity|].
  assert (E : error_text to e = e).
  { unfold error_text. destruct (contains s_413 e) eqn:C1; [exfalso; apply N1; apply contains_inv; exact C1|].
    destruct (says_untrusted e) eqn:C2; [exfalso; apply N2; apply untrusted_inv; exact C2|]. unfold trim. rewrite (trim_left_plain e P).
    rewrite trim_left_plain, rev_involutive; [reflexivity|]. apply Forall_rev, P. }
  rewrite E. apply reads_plain, P.
Qed.
Print Assumptions C218_other_errors.
(* an error that only begins like one about an identity *)
Example C218_other_example : let out := fun _ : handed => Some (txt "remote identity 49") in
  json_answer out (txt "message") (Some (JText [104])) (txt "49") = Ok (500, txt "{""success"": false, ""error"": ""remote identity 49""}").
Proof. vm_compute. reflexivity. Qed.
(* ... and that the identity of a peer with a number has changed, under the name that the caller used *)
Lemma digits_then ds b : forallb digit10 ds = true -> digits_untrusted (ds ++ s_untrusted ++ b) = true.
Proof.
  induction ds as [|c r IH]; intros H; [reflexivity|]. cbn [forallb] in H. apply andb_prop in H. destruct H as [H1 H2].
  cbn [app digits_untrusted]. rewrite H1. apply IH, H2.
Qed.
Lemma here_says b : here_untrusted b = true -> says_untrusted b = true.
Proof. intros H. destruct b as [|c r]; cbn [says_untrusted]; rewrite H; reflexivity. Qed.
Theorem C218_untrusted : forall out field s to id, plain to -> id <> [] -> forallb digit10 id = true ->
  out (mkHanded (is_group to) to s None) = Some (txt "remote identity " ++ id ++ txt " is not trusted") ->
  exists body, json_answer out field (Some (JText s)) to = Ok (500, body) /\ reads_as body (told (txt "remote identity " ++ to ++ txt " is not trusted")).
Proof.
  intros out field s to id PT NE D H. cbn [json_answer]. unfold send_text. rewrite H. cbn [option_map report]. eexists. split; [reflexivity|].
  change (txt "remote identity ") with s_remote. change (txt " is not trusted") with s_untrusted.
  assert (E : error_text to (s_remote ++ id ++ s_untrusted) = s_remote ++ to ++ s_untrusted).
  { unfold error_text. assert (C : contains s_413 (s_remote ++ id ++ s_untrusted) = false).
    { assert (G : forall l, forallb digit10 l = true -> contains s_413 (l ++ s_untrusted) = false).
      { induction l as [|c r IH]; [reflexivity|]. intros X. cbn [forallb] in X. apply andb_prop in X. destruct X as [X1 X2].
        cbn [app contains]. rewrite (IH X2), orb_false_r. unfold s_413. cbn [has_prefix]. destruct (Z.eqb_spec 115 c) as [<-|]; [discriminate X1|reflexivity]. }
      unfold s_remote. cbn [app contains has_prefix s_413 Z.eqb Pos.eqb andb orb]. fold s_413. apply G, D. }
    rewrite C. assert (U : says_untrusted (s_remote ++ id ++ s_untrusted) = true).
    { apply here_says.
      unfold here_untrusted. rewrite has_prefix_app. rewrite skipn_app, skipn_all, Nat.sub_diag. cbn [skipn app andb].
        destruct id as [|c r]; [elim NE; reflexivity|]. cbn [forallb] in D. apply andb_prop in D. destruct D as [D1 D2]. cbn [app]. rewrite D1.
        rewrite <- (app_nil_r s_untrusted). apply digits_then, D2. }
    rewrite U. reflexivity. }
  rewrite E. apply reads_plain. apply plain_app; [apply plainb_ok; reflexivity|]. apply plain_app; [exact PT|apply plainb_ok; reflexivity].
Qed.
Print Assumptions C218_untrusted.

(* ... and any other reason in its own words, without the newline at its end; in either way of asking *)
Theorem C218_reason : forall out open_error can_open removable field u t t' x p, GatewayHandler (outcome out) can_open removable u t = (t', Some x, false) ->
  plain p -> out x = Some p \/ out x = Some (p ++ [10]) -> contains (txt "status code 413") p = false -> contains (txt "remote identity ") p = false ->
  (exists b, gateway_answer out open_error can_open u t = (500, b) /\ reads_as b (told p)) /\
  (h_file x = None -> exists b, json_answer out field (Some (JText (u_text u))) (u_to u) = Ok (500, b) /\ reads_as b (told p)).
Proof.
  intros out open_error can_open removable field u t t' x p H P HO N1 N2.
  change (txt "status code 413") with s_413 in N1. change (txt "remote identity ") with s_remote in N2.
  assert (C10 : forall q l, contains q l = false -> q <> [] -> ~ In 10 q -> contains q (l ++ [10]) = false).
  { intros q l H0 NE NI. assert (PR : forall q l, has_prefix q l = false -> ~ In 10 q -> has_prefix q (l ++ [10]) = false).
    { clear. induction q as [|c q IH]; intros l H NI; [discriminate H|]. destruct l as [|y l]; cbn [app has_prefix] in *.
      - destruct (Z.eqb_spec c 10) as [->|]; [elim NI; left; reflexivity|reflexivity].
      - destruct (c =? y); [|reflexivity]. cbn [andb] in *. apply IH; [exact H|]. intros X. apply NI. right. exact X. }
    induction l as [|y l IH].
    - cbn [app contains] in *. apply orb_false_iff in H0. destruct H0 as [H0 _]. pose proof (PR q [] H0 NI) as X. cbn [app] in X. rewrite X.
      destruct q; [elim NE; reflexivity|reflexivity].
    - cbn [app contains] in *. apply orb_false_iff in H0. destruct H0 as [H1 H2]. rewrite (IH H2). pose proof (PR q (y :: l) H1 NI) as X. cbn [app] in X. rewrite X. reflexivity. }
  assert (SU : forall l, contains s_remote l = false -> says_untrusted l = false).
  { induction l as [|y l IH]; intros H0; [reflexivity|]. cbn [contains says_untrusted] in *. apply orb_false_iff in H0. destruct H0 as [H1 H2].
    rewrite (IH H2). unfold here_untrusted. rewrite H1. reflexivity. }
  assert (E : forall to e, e = p \/ e = p ++ [10] -> error_text to e = p).
  { intros to e [-> | ->]; unfold error_text.
    - rewrite N1, (SU _ N2). apply trim_plain, P.
    - rewrite C10; [|exact N1|discriminate|cbn; intuition lia]. rewrite SU by (apply C10; [exact N2|discriminate|cbn; intuition lia]). apply trim_line, P. }
  assert (K : exists e, out x = Some e /\ forall to, error_text to e = p).
  { destruct HO as [X|X]; eexists; (split; [exact X|]); intros to; apply E; [left|right]; reflexivity. }
  destruct K as (e & X & Y). unfold GatewayHandler in H. unfold gateway_answer. destruct (negb (u_post u)); [discriminate H|].
  destruct (match u_file u with Some (n, b) => if can_open n then (twrite n (overwrite b (tread n t)) t, Some n) else (t, None) | None => (t, None) end) as [t1 fn].
  destruct (u_text u) as [|c s]; [discriminate H|]. destruct (u_to u) as [|d s']; [discriminate H|].
  unfold GatewaySend in H. split.
  - assert (R : send_text out open_error (d :: s') (c :: s) fn t1 = Some p).
    { unfold send_text. destruct fn as [n|]; [destruct (tread n t1) as [b|]; [|discriminate H]|]; injection H as _ H _; rewrite H, X; cbn [option_map]; rewrite Y; reflexivity. }
    rewrite R. cbn [report]. eexists. split; [reflexivity|apply reads_plain, P].
  - intros F. cbn [json_answer]. unfold send_text. destruct fn as [n|]; [destruct (tread n t1) as [b|]; [|discriminate H]|]; injection H as _ H _.
    + rewrite <- H in F. discriminate F.
    + rewrite H, X. cbn [option_map report]. rewrite Y. eexists. split; [reflexivity|apply reads_plain, P].
Qed.
Print Assumptions C218_reason.

(* C218. FALSE of the code: the text of an error is not escaped. If it holds a quotation mark, and then anything but a comma,
   a brace or white space, the answer is no JSON at all ... *)
Theorem C218_quoted : forall e c rest, plain e -> c <> 44 -> c <> 125 -> c <> 32 -> c <> 9 -> c <> 10 -> c <> 13 ->
  forall v, ~ reads_as (b_error ++ e ++ 34 :: c :: rest ++ b_end) v.
Proof.
  intros e c rest P N1 N2 N3 N4 N5 N6 v (n & r & H & _). apply (value_add 4) in H. cbn [Nat.add] in H. rewrite read_error in H.
  rewrite (str_plain e (c :: rest ++ b_end) P) in H. cbn [ws] in H.
  destruct (Z.eqb_spec c 32); [contradiction|]. destruct (Z.eqb_spec c 9); [contradiction|]. destruct (Z.eqb_spec c 10); [contradiction|].
  destruct (Z.eqb_spec c 13); [contradiction|]. cbn [orb is_at] in H. destruct (Z.eqb_spec c 44); [contradiction|]. destruct (Z.eqb_spec c 125); [contradiction|].
  discriminate H.
Qed.
Print Assumptions C218_quoted.
(* ... which it does whenever the server cannot be reached: the error of net/http then quotes the address *)
Definition url_error (op url why : bytes) : bytes := op ++ txt " """ ++ url ++ txt """: " ++ why.
Definition unreachable : bytes := url_error (txt "Put") (txt "https://h/v1/messages/a") (txt "EOF").
Theorem C218_answers_refuted : exists out open_error can_open u t b, plain (u_to u) /\ plain (u_text u) /\ u_post u = true /\
  (forall h, out h = Some unreachable) /\ gateway_answer out open_error can_open u t = (500, b) /\ forall v, ~ reads_as b v.
Proof.
  exists (fun _ => Some unreachable), (fun _ => []), (fun _ => true), (mkUpload true (txt "hi") (txt "a") None), [].
  eexists. split; [apply plainb_ok; reflexivity|]. split; [apply plainb_ok; reflexivity|]. split; [reflexivity|]. split; [reflexivity|].
  split; [vm_compute; reflexivity|].
  change (forall v, ~ reads_as (b_error ++ txt "Put " ++ 34 :: 104 :: txt "ttps://h/v1/messages/a"": EOF" ++ b_end) v).
  apply C218_quoted; [apply plainb_ok; reflexivity|lia..].
Qed.
Print Assumptions C218_answers_refuted.

(* a text that is sent, one that is refused, and one that nobody could read *)
Example C218_example :
  json_answer (fun _ => None) (txt "message") (Some (JText (txt "hi"))) (txt "a") = Ok (200, txt "{""success"": true}") /\
  json_answer (fun _ => Some (txt "status code 404" ++ [10])) (txt "message") (Some (JText (txt "hi"))) (txt "a") =
    Ok (500, txt "{""success"": false, ""error"": ""status code 404""}") /\
  plain_line (txt "status code 404" ++ [10]) /\
  json_answer (fun _ => Some unreachable) (txt "message") (Some (JText (txt "hi"))) (txt "a") =
    Ok (500, txt "{""success"": false, ""error"": ""Put ""https://h/v1/messages/a"": EOF""}") /\
  reads_as (txt " { ""a"" : [ -1.5e3 , null ], ""b"": ""é\n"" } ")
    (Jo [(txt "a", Ja [Jnum (txt "-1.5e3"); Jn]); (txt "b", Js [195; 169; 10])]).
Proof.
  split; [vm_compute; reflexivity|]. split; [vm_compute; reflexivity|].
  split; [exists (txt "status code 404"); split; [apply plainb_ok; reflexivity|right; reflexivity]|].
  split; [vm_compute; reflexivity|]. exists 10%nat, [32]. split; vm_compute; reflexivity.
Qed.
(* The reader of JSON texts on texts of every form the standard has. *)
Definition read1 (s : string) : option json := match value 30 (txt s) with Some (v, r) => if beq (ws r) [] then Some v else None | None => None end.
Example json_strings :
  read1 """ !#[]~""" = Some (Js (txt " !#[]~")) /\
  read1 """\""\\\/\b\f\n\r\t""" = Some (Js [34; 92; 47; 8; 12; 10; 13; 9]) /\
  read1 """\u0000\u0041\u007F\u0080\u07ff\u0800\u9AbC\uDEF1\uaBcD\uFfFf\u0019\u1000""" =
    Some (Js [0; 65; 127; 194; 128; 223; 191; 224; 160; 128; 233; 170; 188; 237; 187; 177; 234; 175; 141; 239; 191; 191; 25; 225; 128; 128]) /\
  Forall (fun s => read1 s = None) [""""; """\"""; """\u004"""; """\u00g0"""; """\u00G0"""; """\u00/0"""; """\u00:0"""; """\u00@0"""; """\u00`0"""; """\a"""; """\v"""; """\]""";
    """\."""; """\0"""; """\#"""; """\["""; """\c"""; """\e"""; """\g"""; """\m"""; """\o"""; """\q"""; """\s"""; """\U0041"""]%string /\
  value 3 [34; 31; 34] = None /\ value 3 [34; 9; 34] = None /\ value 3 [34; 32; 34] = Some (Js [32], []).
Proof. split; [vm_compute; reflexivity|]. split; [vm_compute; reflexivity|]. split; [vm_compute; reflexivity|]. split; [repeat constructor|]. repeat split. Qed.
Example json_numbers :
  Forall (fun s => read1 s = Some (Jnum (txt s))) ["0"; "-0"; "7"; "10"; "109"; "0.0"; "0.90"; "-12.05"; "1e5"; "1E5"; "1e+05"; "1E-90"; "0e0"; "98.7e6"]%string /\
  Forall (fun s => read1 s = None) [""; "-"; "00"; "01"; "-01"; "+1"; ".5"; "1."; "1.e5"; "1e"; "1e+"; "1e,"; "1e.5"; "1f5"; "1D5"; "1d5"; "1 5"; "--1"; "1e*5"; "/"; ":"; "1/"; "1:"; "1,"; "2-"]%string.
Proof. split; repeat constructor. Qed.
Example json_others :
  read1 "true" = Some (Jb true) /\ read1 "false" = Some (Jb false) /\ read1 "null" = Some Jn /\
  Forall (fun s => read1 s = None) ["True"; "tru"; "truf"; "falsf"; "nulk"; "nul"; "truee"; "["; "]"; "[1"; "[1,"; "[1,]"; "[,1]"; "[1 2]"; "[1;2]"; "{"; "}"; "{""a"""; "{""a"":"; "{""a"":1"; "{""a"":1,}";
    "{""a"" 1}"; "{""a"";1}"; "{a:1}"; "{1:1}"; "{""a"":1;""b"":2}"; "[}"; "{]"; "{""a"":1]"; "[1}"; "1 1"]%string /\
  read1 "[]" = Some (Ja []) /\ read1 "[ ]" = Some (Ja []) /\ read1 "{}" = Some (Jo []) /\ read1 "{ }" = Some (Jo []) /\
  read1 " [ 1 , true , [ null ] , { } ] " = Some (Ja [Jnum [49]; Jb true; Ja [Jn]; Jo []]) /\
  read1 " { ""a"" : 1 , ""b"" : { ""c"" : [ ] } , ""a"" : ""d"" } " =
    Some (Jo [(txt "a", Jnum [49]); (txt "b", Jo [(txt "c", Ja [])]); (txt "a", Js (txt "d"))]) /\
  value 5 [9; 10; 13; 32; 91; 9; 49; 10; 44; 13; 50; 32; 93; 10] = Some (Ja [Jnum [49]; Jnum [50]], [10]) /\
  Forall (fun c => value 5 [c; 49] = None) [8; 11; 12; 14; 31; 33; 160].
Proof.
  split; [reflexivity|]. split; [reflexivity|]. split; [reflexivity|]. split; [repeat constructor|].
  split; [reflexivity|]. split; [reflexivity|]. split; [reflexivity|]. split; [reflexivity|]. split; [vm_compute; reflexivity|].
  split; [vm_compute; reflexivity|]. split; [vm_compute; reflexivity|]. repeat constructor.
Qed.
