(* C223: a message to a group, from the call to the applications of its members (/repo/groups.go 205-251,
   /repo/sender.go 13-61, /repo/server.go 749-793, /repo/handler.go 75-111). *)
From Coq Require Import ZArith List Lia Bool.
From Verif Require Import Bytes Res Wire WireProofs Crypto Cbc Messages Session Builder Conversation RecordCodec Content ContentProofs
  Encodings PropEncodings Sending SendingProofs Examples PropHistory PropSending Receiving PropReceiving PropMarks PropStamps GroupSend.
Import ListNotations.
Open Scope Z_scope.

(* Whatever happens, every request carries the one number of the message; success means that a request for every member
   was accepted, and the number is returned. *)
Lemma send_numbered C V rnd fuel self pk now o st out st' :
  sendMessage C V rnd fuel self pk now o st = (out, st') ->
  exists l, cs_log V st' = cs_log V st ++ l /\ numbered (number_of now o) l.
Proof.
  unfold sendMessage. fold (number_of now o).
  assert (DL : forall s u, cs_log V (default_devs V s u) = cs_log V s)
    by (intros s u; unfold default_devs; destruct (cs_devs V s u); reflexivity).
  destruct (buildAndSend C V rnd fuel (o_dest o) (padMessage (marshal_data (createMessage pk now o))) (number_of now o)
    (default_devs V st (o_dest o))) as [out1 st1] eqn:B.
  apply post_numbered in B. destruct B as (l & L & N & _). rewrite DL in L.
  destruct out1 as [[[ns t0]|e|]|]; [|intros [= _ <-]; exists l; split; assumption..].
  destruct ns; [|intros [= _ <-]; exists l; split; assumption].
  unfold sendSyncMessage.
  match goal with |- context [buildAndSend C V rnd fuel self ?p ?n ?s] => destruct (buildAndSend C V rnd fuel self p n s) as [o2 st2] eqn:B2 end.
  apply post_numbered in B2. destruct B2 as (l2 & L2 & N2 & _). rewrite DL in L2.
  assert (G : exists l0, cs_log V st2 = cs_log V st ++ l0 /\ numbered (number_of now o) l0).
  { exists (l ++ l2). split; [rewrite L2, L, <- app_assoc; reflexivity|apply numbered_app; assumption]. }
  destruct o2 as [[[ns2 t2]|e2|]|]; intros [= _ <-]; exact G.
Qed.
Theorem C223_members : forall C V rnd fuel self pk clock text att timer ts g dests last st out st',
  send_members C V rnd fuel self pk clock text att timer ts g dests last st = (out, st') ->
  exists l, cs_log V st' = cs_log V st ++ l /\ numbered ts l /\
    forall t, out = Some (Ok t) -> (dests <> [] -> t = ts) /\ forall d, In d dests ->
      accepted C d (padMessage (marshal_data (createMessage pk clock (member_message d text att timer ts g)))) l.
Proof.
  intros C V rnd fuel self pk clock text att timer ts g dests. induction dests as [|d dests IH]; intros last st out st'; cbn [send_members].
  { intros [= <- <-]. exists []. rewrite app_nil_r. split; [reflexivity|]. split; [intros ? ? []|]. intros t _. split; [intros H; now elim H|intros ? []]. }
  destruct (sendMessage C V rnd fuel self pk clock (member_message d text att timer ts g) st) as [o1 st1] eqn:E.
  pose proof (send_numbered _ _ _ _ _ _ _ _ _ _ _ E) as (l1 & L1 & N1). change (number_of clock (member_message d text att timer ts g)) with ts in N1.
  destruct o1 as [[t1|e|]|].
  2-4: intros [= <- <-]; exists l1; split; [exact L1|]; split; [exact N1|discriminate].
  pose proof (C219_returned _ _ _ _ _ _ _ _ _ _ _ E) as (Et & l1' & L1' & _ & A1). change (number_of clock _) with ts in Et. cbn [o_dest member_message] in A1.
  assert (l1' = l1) by (apply (app_inv_head (cs_log V st)); rewrite <- L1, <- L1'; reflexivity). subst l1'.
  intros S. destruct (IH _ _ _ _ S) as (l & L & N & A). exists (l1 ++ l). split; [rewrite L, L1, <- app_assoc; reflexivity|].
  split; [apply numbered_app; assumption|]. intros t Eo. destruct (A t Eo) as (At & Ad). split.
  - intros _. destruct dests as [|d' r]; [|apply At; discriminate]. cbn [send_members] in S. injection S as <- _. injection Eo as <-. exact Et.
  - intros d0 [<-|Hin].
    + destruct A1 as (q & s0 & m & e & x & n & Hin & R). exists q, s0, m, e, x, n. split; [apply in_or_app; left; exact Hin|exact R].
    + destruct (Ad d0 Hin) as (q & s0 & m & e & x & n & Hq & R). exists q, s0, m, e, x, n. split; [apply in_or_app; right; exact Hq|exact R].
Qed.
Print Assumptions C223_members.

(* What a member's client makes of the content: the application gets the text, under the number of the message, for
   the group that the client finds under the key and revision in the message. *)
Theorem C223_shown : forall C ou src uuid ets pk clock dest text att timer ts g m,
  out_ok pk clock (member_message dest text att timer ts g) -> fits (createMessage pk clock (member_message dest text att timer ts g)) ->
  In (ACall (HMessage m)) (snd (handleMessage C ou src uuid ets
    (stripPadding (padMessage (marshal_data (createMessage pk clock (member_message dest text att timer ts g))))))) ->
  m_text m = text /\ m_ts m = ts /\ m_expire m = timer /\ m_uuid m = uuid /\ ou_group ou g = Ok (m_group m).
Proof.
  intros C ou src uuid ets pk clock dest text att timer ts g m OK F. unfold handleMessage.
  destruct (C35_content pk clock _ OK F) as (d & -> & RA). cbn [c_data].
  destruct RA as (B & T & X & FL & _ & G & _). cbn [member_message o_text o_time o_expire o_gv2 o_flags] in *.
  unfold handleDataMessage, andthen, pure.
  destruct (handleFlags ou uuid d) as [rf lf] eqn:HF.
  assert (NF : ~ In (ACall (HMessage m)) lf).
  { clear -HF. unfold handleFlags in HF. revert HF.
    repeat (match goal with |- context [if ?x then _ else _] => destruct x | |- context [match ?x with _ => _ end] => destruct x end);
      intros [= <- <-]; cbn [In]; intuition discriminate. }
  destruct rf as [fl| |]; [|intros Hin; contradiction..].
  destruct (handleAttachments C ou (d_atts d)) as [at_| |]; cbn [fst snd]; rewrite ?app_nil_l, ?app_nil_r; [|intros Hin; contradiction..].
  rewrite T, G. destruct (ou_group ou g) as [gr| |]; cbn [fst snd app]; rewrite ?app_nil_r; [|intros Hin; contradiction..].
  intros Hin. apply in_app_or in Hin. destruct Hin as [Hin|[E|[]]]; [contradiction|]. injection E as <-.
  cbn [m_text m_ts m_expire m_uuid m_group]. rewrite B, X. split; [destruct text; reflexivity|]. split; [reflexivity|]. split; [reflexivity|].
  split; reflexivity.
Qed.
Print Assumptions C223_shown.

(* A message that is sent again, because sending it to one member failed, goes to others a second time as a new message. *)
Definition reached (dest : bytes) (l : list event) : list Z :=
  flat_map (fun e => match e with
    | EvPut q (PutStatus s _ _ _ _) => if beq (q_dest q) dest && negb (isError s) then [q_ts q] else []
    | _ => [] end) l.
Definition ex_flaky := ex_server ex_pub_of (fun n => match n with S O => PutStatus 500 [] [] [] false | _ => ok200 end).
Definition ex_ctx : gctx2 := mkGctx2 (Some (rb 9)) (Some 3) None.
Definition nc : bytes := [99; 99].
Lemma twice C V rnd fuel self pk clock text att timer ts ts' g dests st d : crypto_ok C -> NoDup dests -> ts <> ts' ->
  let r := send_members C V rnd fuel self pk clock text att timer ts g dests 0 st in
  let r' := send_members C V rnd fuel self pk clock text att timer ts' g dests 0 (snd r) in
  (exists e, fst r = Some (Err e)) -> fst r' = Some (Ok ts') -> reached d (cs_log V (snd r')) = [ts; ts'] ->
  exists st1 st2 e, crypto_ok C /\ NoDup dests /\ ts <> ts' /\
    send_members C V rnd fuel self pk clock text att timer ts g dests 0 st = (Some (Err e), st1) /\
    send_members C V rnd fuel self pk clock text att timer ts' g dests 0 st1 = (Some (Ok ts'), st2) /\
    reached d (cs_log V st2) = [ts; ts'].
Proof.
  cbv zeta. intros K N D (e & E1) E2 R. destruct (send_members C V rnd fuel self pk clock text att timer ts g dests 0 st) as [o1 st1].
  cbn [fst snd] in *. subst o1. destruct (send_members C V rnd fuel self pk clock text att timer ts' g dests 0 st1) as [o2 st2] eqn:S2.
  cbn [fst snd] in *. subst o2. exists st1, st2, e. split; [exact K|]. split; [exact N|]. split; [exact D|]. split; [reflexivity|]. split; [exact S2|exact R].
Qed.
Theorem C223_again_refuted : exists C V rnd fuel self pk clock text att timer ts ts' g dests st d st1 st2 e,
  crypto_ok C /\ NoDup dests /\ ts <> ts' /\
  send_members C V rnd fuel self pk clock text att timer ts g dests 0 st = (Some (Err e), st1) /\
  send_members C V rnd fuel self pk clock text att timer ts' g dests 0 st1 = (Some (Ok ts'), st2) /\
  reached d (cs_log V st2) = [ts; ts'].
Proof.
  exists toy, ex_flaky, ex_rnd, 2%nat, na, None, 0, [104; 105], None, 0, 1000, 2000, ex_ctx, [nb; nc], (ex_cs ex_flaky O), nb.
  apply twice.
  - exact toy_ok.
  - constructor; [cbn [In]; intros [H|[]]; discriminate H|constructor; [intros []|constructor]].
  - discriminate.
  - eexists. vm_compute. reflexivity.
  - vm_compute. reflexivity.
  - vm_compute. reflexivity.
Qed.
Print Assumptions C223_again_refuted.

Example C223_example :
  let V := ex_server ex_pub_of (fun _ => ok200) in
  let r := send_members toy V ex_rnd 2 na None 0 [104; 105] None 0 1000 ex_ctx [nb; nc] 0 (ex_cs V O) in
  (fst r, reached nb (cs_log V (snd r)), reached nc (cs_log V (snd r))) = (Some (Ok 1000), [1000], [1000]).
Proof. vm_compute. reflexivity. Qed.
Example C223_shown_example :
  map (fun a => match a with ACall (HMessage m) => (m_text m, m_ts m) | _ => ([], 0) end)
    (snd (handleMessage toy (ex_outside no_fetch) na na 7
      (marshal_data (createMessage None 0 (member_message nb [104; 105] None 0 1000 ex_ctx))))) = [([104; 105], 1000)].
Proof. vm_compute. reflexivity. Qed.
