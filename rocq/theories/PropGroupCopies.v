(* C227: the copies of a message to a group for the own devices (/repo/groups.go 229-250, /repo/sender.go 13-84). *)
From Coq Require Import ZArith List Lia Bool.
From Verif Require Import Bytes Res Wire WireProofs Crypto Cbc Messages Session Builder Conversation RecordCodec Content ContentProofs
  Encodings PropEncodings Sending SendingProofs Examples PropHistory PropSending Receiving PropReceiving PropMarks PropStamps GroupSend PropGroupSend.
Import ListNotations.
Open Scope Z_scope.

(* the server asks for a copy with every request for somebody else that it takes: the account has other devices *)
Definition wants_copies (V : server) (self : bytes) (yes : bool) : Prop :=
  forall s q status m e x ns, fst (sv_put V s q) = PutStatus status m e x ns -> 200 <= status < 300 -> q_dest q <> self -> ns = yes.

Lemma reached_app d l l' : reached d (l ++ l') = reached d l ++ reached d l'.
Proof. apply flat_map_app. Qed.
Lemma reached_fetches d uuid l : Forall (fetch_of uuid) l -> reached d l = [].
Proof. induction 1 as [|e l H F IH]; [reflexivity|]. destruct e as [u dv r|q r]; [exact IH|destruct H]. Qed.

(* Sending to one name: at most one request is taken, the last one. *)
Lemma post_reached C V rnd uuid padded ts d : forall fuel st out st', buildAndSend C V rnd fuel uuid padded ts st = (out, st') ->
  exists l, cs_log V st' = cs_log V st ++ l /\
    reached d l = match out with Some (Ok _) => if beq uuid d then [ts] else [] | _ => [] end /\
    forall ns t, out = Some (Ok (ns, t)) -> exists s q status m e x, fst (sv_put V s q) = PutStatus status m e x ns /\
      200 <= status < 300 /\ q_dest q = uuid.
Proof.
  induction fuel as [|fuel IH]; intros st out st'; cbn [buildAndSend].
  { intros [= <- <-]. exists []. rewrite app_nil_r. split; [reflexivity|]. split; [reflexivity|discriminate]. }
  destruct (buildMessage C V rnd uuid padded (devs_of V st uuid) st) as [rb st1] eqn:B.
  assert (L1 : exists f, cs_log V st1 = cs_log V st ++ f /\ reached d f = []).
  { unfold buildMessage in B. destruct (recID uuid) as [recid|e|].
    - apply build_log in B. destruct B as (_ & (f & Lf & Ff) & _). exists f. split; [exact Lf|exact (reached_fetches d uuid f Ff)].
    - injection B as <- <-. exists []. rewrite app_nil_r. split; reflexivity.
    - injection B as <- <-. exists []. rewrite app_nil_r. split; reflexivity. }
  destruct L1 as (f & L1 & R1).
  destruct rb as [js|e|].
  2:{ intros [= <- <-]. exists f. split; [exact L1|]. split; [exact R1|discriminate]. }
  2:{ intros [= <- <-]. exists f. split; [exact L1|]. split; [exact R1|discriminate]. }
  set (q := mkReq uuid ts js). destruct (sv_put V (cs_srv V st1) q) as [reply s'] eqn:EP.
  set (st2 := mkCs V (cs_w V st1) (cs_devs V st1) (cs_rnd V st1) s' (cs_log V st1 ++ [EvPut q reply])).
  assert (L2 : cs_log V st2 = cs_log V st ++ (f ++ [EvPut q reply])) by (unfold st2; cbn [cs_log]; rewrite L1, <- app_assoc; reflexivity).
  assert (REC : forall st3, cs_log V st3 = cs_log V st2 -> reached d [EvPut q reply] = [] -> buildAndSend C V rnd fuel uuid padded ts st3 = (out, st') ->
    exists l, cs_log V st' = cs_log V st ++ l /\
    reached d l = match out with Some (Ok _) => if beq uuid d then [ts] else [] | _ => [] end /\
    forall ns t, out = Some (Ok (ns, t)) -> exists s q status m e x, fst (sv_put V s q) = PutStatus status m e x ns /\
      200 <= status < 300 /\ q_dest q = uuid).
  { intros st3 L3 R3 E. destruct (IH _ _ _ E) as (l & Ll & Rl & A). exists ((f ++ [EvPut q reply]) ++ l). split.
    { rewrite Ll, L3, L2, <- app_assoc. reflexivity. }
    split; [|exact A]. rewrite !reached_app, R1, R3. exact Rl. }
  destruct reply as [|status missing extra stale ns].
  { intros [= <- <-]. exists (f ++ [EvPut q PutNet]). split; [exact L2|]. split; [rewrite reached_app, R1; reflexivity|discriminate]. }
  assert (RF : isError status = true -> reached d [EvPut q (PutStatus status missing extra stale ns)] = []).
  { intros E. cbn [reached flat_map app]. rewrite E. cbn [negb]. rewrite andb_false_r. reflexivity. }
  destruct (Z.eqb_spec status 409) as [->|N9].
  { intros E. eapply REC; [|apply RF; reflexivity|exact E]; reflexivity. }
  destruct (Z.eqb_spec status 410) as [->|N10].
  { destruct stale as [|dv stale].
    - destruct (recID uuid) as [recid|e|]; intros E; (eapply REC; [|apply RF; reflexivity|exact E]; reflexivity).
    - destruct (recID uuid) as [recid|e|].
      + intros E; (eapply REC; [|apply RF; reflexivity|exact E]; reflexivity).
      + intros [= <- <-]. eexists. split; [exact L2|]. split; [rewrite reached_app, R1; apply RF; reflexivity|discriminate].
      + intros E; (eapply REC; [|apply RF; reflexivity|exact E]; reflexivity). }
  destruct (isError status) eqn:IE.
  - intros [= <- <-]. eexists. split; [exact L2|]. split; [rewrite reached_app, R1; apply RF; reflexivity|discriminate].
  - intros [= <- <-]. eexists. split; [exact L2|]. split.
    + rewrite reached_app, R1. cbn [reached flat_map app]. rewrite IE. unfold q. cbn [q_dest q_ts negb]. rewrite andb_true_r, app_nil_r. reflexivity.
    + intros ns' t [= <- <-]. exists (cs_srv V st1), q, status, missing, extra, stale. rewrite EP. split; [reflexivity|].
      split; [unfold isError in IE; apply orb_false_iff in IE; lia|reflexivity].
Qed.

(* Sending one message to somebody else: one request for them is taken, and one for the own devices if the server asks. *)
Lemma send_reached C V rnd fuel self pk now o st t st' yes : o_dest o <> self -> wants_copies V self yes ->
  sendMessage C V rnd fuel self pk now o st = (Some (Ok t), st') ->
  exists l, cs_log V st' = cs_log V st ++ l /\ reached self l = if yes then [number_of now o] else [].
Proof.
  intros D W. unfold sendMessage. fold (number_of now o).
  assert (DL : forall s u, cs_log V (default_devs V s u) = cs_log V s)
    by (intros s u; unfold default_devs; destruct (cs_devs V s u); reflexivity).
  destruct (buildAndSend C V rnd fuel (o_dest o) (padMessage (marshal_data (createMessage pk now o))) (number_of now o)
    (default_devs V st (o_dest o))) as [out1 st1] eqn:B.
  apply (post_reached _ _ _ _ _ _ self) in B. destruct B as (l & L & R & A). rewrite DL in L.
  destruct out1 as [[[ns t0]|e|]|]; try discriminate.
  destruct (A ns t0 eq_refl) as (s0 & q0 & status & m & e & x & E0 & S0 & D0).
  assert (NY : ns = yes) by (eapply W; [exact E0|exact S0|rewrite D0; exact D]). subst ns.
  assert (BN : beq (o_dest o) self = false).
  { destruct (beq (o_dest o) self) eqn:E; [|reflexivity]. exfalso. apply D. apply beq_eq. exact E. }
  rewrite BN in R. destruct yes.
  2:{ intros [= _ <-]. exists l. split; assumption. }
  unfold sendSyncMessage.
  match goal with |- context [buildAndSend C V rnd fuel self ?p ?n ?s] => destruct (buildAndSend C V rnd fuel self p n s) as [o2 st2] eqn:B2 end.
  apply (post_reached _ _ _ _ _ _ self) in B2. destruct B2 as (l2 & L2 & R2 & _). rewrite DL in L2.
  destruct o2 as [[[ns2 t2]|e2|]|]; try discriminate. rewrite beq_refl in R2.
  intros [= _ <-]. exists (l ++ l2). split; [rewrite L2, L, <- app_assoc; reflexivity|]. rewrite reached_app, R, R2. reflexivity.
Qed.

(* A message to a group of other people: if the account has other devices, they get as many copies as the group has members,
   all under the number of the message; otherwise none. *)
Theorem C227_copies : forall C V rnd fuel self pk clock text att timer ts g yes dests last st t st',
  ~ In self dests -> wants_copies V self yes ->
  send_members C V rnd fuel self pk clock text att timer ts g dests last st = (Some (Ok t), st') ->
  exists l, cs_log V st' = cs_log V st ++ l /\ reached self l = if yes then repeat ts (length dests) else [].
Proof.
  intros C V rnd fuel self pk clock text att timer ts g yes dests. induction dests as [|d dests IH]; intros last st t st' NI W; cbn [send_members].
  { intros [= _ <-]. exists []. rewrite app_nil_r. split; [reflexivity|]. destruct yes; reflexivity. }
  destruct (sendMessage C V rnd fuel self pk clock (member_message d text att timer ts g) st) as [o1 st1] eqn:E.
  destruct o1 as [[t1|e|]|]; try discriminate. intros S.
  apply (send_reached _ _ _ _ _ _ _ _ _ _ _ yes) in E; [|cbn [member_message o_dest]; intros ->; apply NI; left; reflexivity|exact W].
  destruct E as (l1 & L1 & R1). change (number_of clock (member_message d text att timer ts g)) with ts in R1.
  destruct (IH t1 st1 t st') as (l & L & R); [intros H; apply NI; right; exact H|exact W|exact S|].
  exists (l1 ++ l). split; [rewrite L, L1, <- app_assoc; reflexivity|]. rewrite reached_app, R1, R. destruct yes; reflexivity.
Qed.
Print Assumptions C227_copies.

(* For one person it is one copy. *)
Theorem C227_one_person : forall C V rnd fuel self pk now o st t st', o_dest o <> self -> wants_copies V self true ->
  sendMessage C V rnd fuel self pk now o st = (Some (Ok t), st') ->
  exists l, cs_log V st' = cs_log V st ++ l /\ reached self l = [t].
Proof.
  intros C V rnd fuel self pk now o st t st' D W S. pose proof (C219_returned _ _ _ _ _ _ _ _ _ _ _ S) as (-> & _).
  exact (send_reached _ _ _ _ _ _ _ _ _ _ _ true D W S).
Qed.
Print Assumptions C227_one_person.

(* So a message to a group of two others comes to the other own devices twice, and each copy is handed to the application
   there as a message that was sent. *)
Definition ex_linked := ex_server ex_pub_of (fun _ => PutStatus 200 [] [] [] true).
Lemma two_copies C V rnd fuel self pk clock text att timer ts g dests st : crypto_ok C -> NoDup (self :: dests) -> wants_copies V self true ->
  fst (send_members C V rnd fuel self pk clock text att timer ts g dests 0 st) = Some (Ok ts) -> cs_log V st = [] -> (length dests = 2)%nat ->
  exists st', crypto_ok C /\ NoDup (self :: dests) /\ send_members C V rnd fuel self pk clock text att timer ts g dests 0 st = (Some (Ok ts), st') /\
    reached self (cs_log V st') = [ts; ts].
Proof.
  intros K N W E L0 Le. destruct (send_members C V rnd fuel self pk clock text att timer ts g dests 0 st) as [o st'] eqn:S.
  cbn [fst] in E. subst o. exists st'. split; [exact K|]. split; [exact N|]. split; [reflexivity|].
  inversion N as [|x y NI _]; subst. destruct (C227_copies _ _ _ _ _ _ _ _ _ _ _ _ true _ _ _ _ _ NI W S) as (l & L & R).
  rewrite L, L0, Le in *. exact R.
Qed.
Theorem C227_one_copy_refuted : exists C V rnd fuel self pk clock text att timer ts g dests st st',
  crypto_ok C /\ NoDup (self :: dests) /\
  send_members C V rnd fuel self pk clock text att timer ts g dests 0 st = (Some (Ok ts), st') /\
  reached self (cs_log V st') = [ts; ts].
Proof.
  exists toy, ex_linked, ex_rnd, 2%nat, na, None, 0, [104; 105], None, 0, 1000, ex_ctx, [nb; nc], (ex_cs ex_linked O).
  apply two_copies.
  - exact toy_ok.
  - constructor; [cbn [In]; intros [H|[H|[]]]; discriminate H|]. constructor; [cbn [In]; intros [H|[]]; discriminate H|constructor; [intros []|constructor]].
  - intros s q status m e x ns E _ _. cbn in E. injection E as _ _ _ _ <-. reflexivity.
  - vm_compute. reflexivity.
  - reflexivity.
  - reflexivity.
Qed.
Print Assumptions C227_one_copy_refuted.

(* each copy, received there *)
Example C227_shown_twice_example :
  map (fun d => map (fun a => match a with ACall (HSyncSent m sts) => (m_text m, m_ts m, sts) | _ => ([], 0, 0) end)
    (snd (handleMessage toy (ex_outside no_fetch) na na 7 (stripPadding (padMessage (marshal_sync
      (copy_for None 0 (member_message d [104; 105] None 0 1000 ex_ctx) None (Some d)))))))) [nb; nc]
  = [[([104; 105], 1000, 7)]; [([104; 105], 1000, 7)]].
Proof. vm_compute. reflexivity. Qed.
Example C227_example : wants_copies ex_linked na true /\
  fst (send_members toy ex_linked ex_rnd 2 na None 0 [104; 105] None 0 1000 ex_ctx [nb] 0 (ex_cs ex_linked O)) = Some (Ok 1000).
Proof. split; [intros s q status m e x ns E _ _; cbn in E; injection E as _ _ _ _ <-; reflexivity|vm_compute; reflexivity]. Qed.
