(* C214: what the command line program prints tells who wrote what, and when *)
From Coq Require Import String Ascii ZArith List Lia Bool.
From Verif Require Import Bytes Res Messages Session Builder Encodings Content Receiving PropApplications Console.
Import ListNotations.
Open Scope Z_scope.
Ltac Zify.zify_post_hook ::= Z.to_euclidean_division_equations.

Definition txt (s : string) : bytes := map (fun c => Z.of_N (N_of_ascii c)) (list_ascii_of_string s).

Lemma weekday_length d : length (weekday d) = 3%nat.
Proof.
  unfold weekday. assert (H : 0 <= (d + 4) mod 7 < 7) by (apply Z.mod_pos_bound; lia).
  assert (E : (d + 4) mod 7 = 0 \/ (d + 4) mod 7 = 1 \/ (d + 4) mod 7 = 2 \/ (d + 4) mod 7 = 3 \/ (d + 4) mod 7 = 4 \/ (d + 4) mod 7 = 5 \/ (d + 4) mod 7 = 6) by (clear - H; generalize dependent ((d + 4) mod 7); intros; lia).
  repeat (destruct E as [->|E]; [reflexivity|]). rewrite E. reflexivity.
Qed.
Lemma timestamp_length z t : length (timestamp z t) = 9%nat.
Proof. unfold timestamp. cbv zeta. rewrite !app_length, weekday_length. reflexivity. Qed.
Lemma app_split {A} (a b c d : list A) : length a = length b -> a ++ c = b ++ d -> a = b /\ c = d.
Proof.
  revert b. induction a as [|x a IH]; intros [|y b] L E; try discriminate L; [auto|]. cbn [app] in E. injection E as -> E.
  cbn [length] in L. destruct (IH b ltac:(lia) E) as [-> ->]. auto.
Qed.
Lemma space_split a b c d : ~ In 32 a -> ~ In 32 b -> a ++ [32] ++ c = b ++ [32] ++ d -> a = b /\ c = d.
Proof.
  revert b. induction a as [|x a IH]; intros [|y b] NA NB E; cbn [app] in E.
  - injection E as ->. auto.
  - injection E as <- _. elim NB. now left.
  - injection E as -> _. elim NA. now left.
  - injection E as -> E. destruct (IH b) as [-> ->]; [intros X; apply NA; now right|intros X; apply NB; now right|exact E|]. auto.
Qed.

(* Between two people: if the names that are shown have no space in them, a line tells the name and the text. *)
Theorem C214_direct_partial : forall zone names m m', pm_group m = None -> pm_group m' = None ->
  ~ In 32 (getName names (pm_source m)) -> ~ In 32 (getName names (pm_source m')) ->
  pretty zone names m = pretty zone names m' ->
  timestamp zone (pm_time m) = timestamp zone (pm_time m') /\ getName names (pm_source m) = getName names (pm_source m') /\ pm_text m = pm_text m'.
Proof.
  intros zone names m m' G G' N N' E. unfold pretty in E. rewrite G, G' in E. cbv zeta in E.
  apply app_split in E; [|now rewrite !timestamp_length]. destruct E as [ET E]. cbn [app] in E. apply (f_equal (@tl Z)) in E. cbn [tl] in E.
  change (32 :: pm_text m) with ([32] ++ pm_text m) in E. change (32 :: pm_text m') with ([32] ++ pm_text m') in E.
  apply space_split in E; [|assumption|assumption]. destruct E as [EN EX]. auto.
Qed.
(* A source is shown by the name that the contacts have for it, and by itself if they have none. *)
Theorem C214_named : forall zone names m n, In (pm_source m, n) names -> NoDup (map fst names) -> pm_group m = None ->
  pretty zone names m = timestamp zone (pm_time m) ++ txt " " ++ n ++ txt " " ++ pm_text m.
Proof.
  intros zone names m n H ND G. unfold pretty. rewrite G. cbv zeta. assert (E : getName names (pm_source m) = n); [|rewrite E; reflexivity].
  clear G. induction names as [|[k x] r IH]; [destruct H|]. cbn [getName]. cbn [map fst] in ND. inversion_clear ND as [|? ? N ND']. destruct H as [H|H].
  - injection H as -> ->. now rewrite beq_refl.
  - destruct (beq k (pm_source m)) eqn:B; [|auto]. apply beq_eq in B. subst k. elim N. apply in_map_iff. exists (pm_source m, n). auto.
Qed.
(* Every message with a text is printed, each on a line of its own, and without -raw every one twice. *)
Theorem C214_twice : forall zone names m,
  printed true zone names m = (if beq (pm_text m) [] then [] else [13] ++ pretty zone names m ++ [10; 62]) /\
  printed false zone names m = printed true zone names m ++ printed true zone names m.
Proof. intros zone names m. unfold printed. destruct (pm_text m); split; reflexivity. Qed.
(* FALSE otherwise. A message without source is printed without any sender, and so is every sealed one. *)
Theorem C214_nobody : forall zone names m, pm_source m = [] -> pm_group m = None -> (forall n, ~ In ([], n) names) ->
  pretty zone names m = timestamp zone (pm_time m) ++ [32; 32] ++ pm_text m.
Proof.
  intros zone names m S0 G N. unfold pretty. rewrite S0, G. cbv zeta.
  assert (E : getName names [] = []).
  { induction names as [|[k n] r IH]; [reflexivity|]. cbn [getName]. destruct (beq k []) eqn:B; [apply beq_eq in B; subst; elim (N n); now left|].
    apply IH. intros x X. apply (N x). now right. }
  rewrite E. reflexivity.
Qed.
(* who a message comes from, as the library tells the program: the source of the envelope twice, or for a sealed
   message nothing and the UUID *)
Lemma message_names C ou src uuid ts b m : In (ACall (HMessage m)) (snd (handleMessage C ou src uuid ts b)) -> m_source m = src /\ m_uuid m = uuid.
Proof.
  intros H. destruct (message_shown C ou src uuid ts b m H) as (E & c & EC & [(d & ED & flags & atts & t & gr & _ & _ & _ & _ & ->)|(ED & ES & cl & EL)]); [split; reflexivity|].
  split; [exact E|]. unfold handleMessage in H. rewrite EC, ED, ES, EL in H. cbn [handleCallMessage snd In] in H. destruct H as [H|[]]. injection H as <-. reflexivity.
Qed.
Lemma arrived_from C ou st rnd rnd2 e m : In (ACall (HMessage m)) (snd (handleReceivedMessage C ou st rnd rnd2 (Some e))) ->
  if match e_type e with Some t => t =? 6 | None => false end then m_source m = []
  else m_source m = g_bytes (e_source e) /\ m_uuid m = g_bytes (e_source e).
Proof.
  intros H. destruct (e_type e) as [t|] eqn:ET; [|unfold handleReceivedMessage in H; rewrite ET in H; destruct H].
  destruct (Z.eqb_spec t 6) as [->|N].
  { unfold handleReceivedMessage in H. rewrite ET in H. cbn [Z.eqb Pos.eqb] in H. unfold handle_unidentified in H. destruct (e_dest e); [|destruct H].
    apply in_andthen in H. destruct H as [[]|([[sender text] ts] & _ & H)]. apply in_andthen in H. destruct H as [[]|(content & _ & H)].
    destruct content as [|c0 content]; [destruct H|]. apply message_names in H. apply H. }
  destruct (m_source m) as [|c0 r] eqn:EM.
  - unfold handleReceivedMessage in H. rewrite ET in H. destruct (t =? 5); [destruct H as [H|[]]; discriminate H|].
    assert (D : forall pt, In (ACall (HMessage m)) (snd (deliver C ou e pt)) -> [] = g_bytes (e_source e) /\ m_uuid m = g_bytes (e_source e))
      by (intros pt HD; unfold deliver in HD; apply message_names in HD; rewrite EM in HD; exact HD).
    destruct (t =? 1).
    { unfold handle_cipher in H. destruct (e_content e) as [msg|]; [|destruct H]. destruct (LoadWhisperMessage msg) as [wm| |]; [|destruct H..]. unfold stored in H.
      match type of H with context [SessionDecryptWhisperMessage ?a ?b ?c ?d ?x ?y] => destruct (SessionDecryptWhisperMessage a b c d x y) as [[pt|x0|] l] end; cbn [fst snd] in H.
      - destruct (deliver C ou e pt) as [r l'] eqn:EDl. cbn [snd] in H. apply in_app_or in H. destruct H as [H|H]; [destruct (no_calls _ _ H)|].
        apply (D pt). rewrite EDl. exact H.
      - exfalso. destruct x0; try (exact (no_calls _ _ H)).
        match type of H with context [SessionDecryptWhisperMessage ?a ?b ?c ?d ?x ?y] => destruct (SessionDecryptWhisperMessage a b c d x y) as [r2 l2] end.
        cbn [fst snd] in H.
        assert (H' : In (ACall (HMessage m)) (map AStore l ++ map AStore l2)) by (destruct r2 as [b2|x2|]; [exact H|destruct x2; exact H|exact H]).
        apply in_app_or in H'. destruct H' as [H'|H']; exact (no_calls _ _ H').
      - destruct (no_calls _ _ H). }
    destruct (t =? 3).
    { unfold handle_prekey in H. destruct (LoadPreKeyWhisperMessage (g_bytes (e_content e))) as [pm| |]; [|destruct H..]. unfold stored in H.
      match type of H with context [SessionDecryptPreKeyWhisperMessage ?a ?b ?c ?d ?x ?y] => destruct (SessionDecryptPreKeyWhisperMessage a b c d x y) as [[pt|x0|] l] end; cbn [fst snd] in H.
      - destruct (deliver C ou e pt) as [r l'] eqn:EDl. cbn [snd] in H. apply in_app_or in H. destruct H as [H|H]; [destruct (no_calls _ _ H)|].
        apply (D pt). rewrite EDl. exact H.
      - destruct x0; destruct (no_calls _ _ H).
      - destruct (no_calls _ _ H). }
    destruct (Z.eqb_spec t 6) as [X|_]; [contradiction|destruct H].
  - rewrite <- EM. assert (NE : m_source m <> []) by (rewrite EM; discriminate).
    destruct (shown_from C ou st rnd rnd2 e m H NE) as (ty & b & pt & l & _ & _ & _ & HD). unfold deliver in HD. exact (message_names _ _ _ _ _ _ _ HD).
Qed.
Theorem C214_sealed : forall C ou st rnd rnd2 e m zone names, In (ACall (HMessage m)) (snd (handleReceivedMessage C ou st rnd rnd2 (Some e))) ->
  e_type e = Some 6 -> (forall n, ~ In ([], n) names) ->
  pretty zone names (line_of m) = timestamp zone (m_ts m) ++ txt "  " ++ m_text m.
Proof.
  intros C ou st rnd rnd2 e m zone names H ET N. apply arrived_from in H. rewrite ET in H. cbn [Z.eqb Pos.eqb] in H.
  apply (C214_nobody zone names (line_of m)); [exact H|reflexivity|exact N].
Qed.
(* The names of the contacts, which are filed under their numbers, are not shown for any other message either. *)
Theorem C214_never_by_name : forall C ou st rnd rnd2 e m zone names, In (ACall (HMessage m)) (snd (handleReceivedMessage C ou st rnd rnd2 (Some e))) ->
  e_type e <> Some 6 -> (forall n, ~ In (g_bytes (e_source e), n) names) ->
  pretty zone names (line_of m) = timestamp zone (m_ts m) ++ txt " " ++ g_bytes (e_source e) ++ txt " " ++ m_text m.
Proof.
  intros C ou st rnd rnd2 e m zone names H ET N. apply arrived_from in H.
  assert (X : match e_type e with Some t => t =? 6 | None => false end = false) by (destruct (e_type e) as [t|]; [apply Z.eqb_neq; congruence|reflexivity]).
  rewrite X in H. destruct H as [H _]. unfold pretty, line_of. cbn [pm_group pm_source pm_text pm_time]. cbv zeta. rewrite H.
  assert (E : getName names (g_bytes (e_source e)) = g_bytes (e_source e)); [|rewrite E; reflexivity].
  clear - N. induction names as [|[k n] r IH]; [reflexivity|]. cbn [getName]. destruct (beq k (g_bytes (e_source e))) eqn:B; [apply beq_eq in B; subst; elim (N n); now left|].
  apply IH. intros x X. apply (N x). now right.
Qed.
(* two contents in base64: the text "hi" with the timestamp 7, without a group and with one *)
Definition ex_hi : string := "CgoKAmhpIAAoADgH".
Definition ex_hi_group : string := "ChEKAmhpIAAoADgHegUKAQEQAw==".
Definition ex_to (sender text : string) : outside :=
  mkOutside (fun _ => Err EOther) (fun g => Ok (gc_master g)) (fun k => k) (fun _ => Ok (txt sender, txt text, 5)) (Ok tt) (fun _ => Ok tt) (Ok tt).
Definition ex_sealed : envelope := mkEnv (Some 6) None None (Some []) None None None.
Theorem C214_who_refuted : forall C st rnd, exists ou ou' e m m' zone names,
  In (ACall (HMessage m)) (snd (handleReceivedMessage C ou st rnd rnd (Some e))) /\
  In (ACall (HMessage m')) (snd (handleReceivedMessage C ou' st rnd rnd (Some e))) /\
  m_uuid m <> m_uuid m' /\ m_text m <> [] /\ printed true zone names (line_of m) = printed true zone names (line_of m').
Proof.
  intros C st rnd. exists (ex_to "a" ex_hi), (ex_to "b" ex_hi), ex_sealed, (mkMsg [] (txt "a") (txt "hi") [] None 0 0 None 7 None [] None None),
    (mkMsg [] (txt "b") (txt "hi") [] None 0 0 None 7 None [] None None), 0, [(txt "+2", txt "Alice")].
  split; [vm_compute; now left|]. split; [vm_compute; now left|]. split; [discriminate|]. split; [discriminate|reflexivity].
Qed.
(* Messages of groups are printed as if they had been sent to oneself alone: the group, and everything but the source, the
   text and the time, makes no difference. *)
Theorem C214_group_unseen : forall zone names m m', m_source m = m_source m' -> m_text m = m_text m' -> m_ts m = m_ts m' ->
  pretty zone names (line_of m) = pretty zone names (line_of m').
Proof. intros zone names m m' E1 E2 E3. unfold pretty, line_of. cbn [pm_group pm_source pm_text pm_time]. rewrite E1, E2, E3. reflexivity. Qed.
Theorem C214_group_refuted : forall C st rnd, exists ou ou' e m m' zone names,
  In (ACall (HMessage m)) (snd (handleReceivedMessage C ou st rnd rnd (Some e))) /\
  In (ACall (HMessage m')) (snd (handleReceivedMessage C ou' st rnd rnd (Some e))) /\
  m_group m = None /\ (exists g, m_group m' = Some g) /\ m_text m <> [] /\ printed true zone names (line_of m) = printed true zone names (line_of m').
Proof.
  intros C st rnd. exists (ex_to "a" ex_hi), (ex_to "a" ex_hi_group), ex_sealed, (mkMsg [] (txt "a") (txt "hi") [] None 0 0 None 7 None [] None None),
    (mkMsg [] (txt "a") (txt "hi") [] (Some [1]) 0 0 None 7 None [] None None), 0, [(txt "+2", txt "Alice")].
  split; [vm_compute; now left|]. split; [vm_compute; now left|]. split; [reflexivity|]. split; [eexists; reflexivity|]. split; [discriminate|reflexivity].
Qed.
(* Anyone can make the program print, in one message, what a message of somebody else would look like: for every
   message m of anyone, and every sender, there is a text with which the sender gets the same bytes printed as with a
   message of their own followed by m. *)
Theorem C214_forged : forall zone names m me first t, pm_text m <> [] -> first <> [] ->
  printed true zone names (mkPmsg me [] None (first ++ [10; 62; 13] ++ pretty zone names m) t) =
  printed true zone names (mkPmsg me [] None first t) ++ printed true zone names m.
Proof.
  intros zone names m me first t N NF.
  assert (L : forall x, pm_text x <> [] -> printed true zone names x = [13] ++ pretty zone names x ++ [10; 62]).
  { intros x NX. unfold printed. destruct (pm_text x); [now elim NX|reflexivity]. }
  rewrite !L; [|exact N|exact NF|destruct first; [now elim NF|discriminate]].
  assert (P : forall x, pretty zone names (mkPmsg me [] None x t) = (timestamp zone t ++ [32] ++ getName names me ++ [32]) ++ x).
  { intros x. unfold pretty. cbn [pm_group pm_source pm_text pm_time]. cbv zeta. rewrite <- !app_assoc. reflexivity. }
  rewrite !P, <- !app_assoc. reflexivity.
Qed.
Theorem C214_forged_refuted : exists zone names eve alice text t m, pm_source m = alice /\ eve <> alice /\
  printed true zone names (mkPmsg eve [] None text t) = printed true zone names (mkPmsg eve [] None (txt "ok") t) ++ printed true zone names m.
Proof.
  exists 0, [(txt "+2", txt "Alice")], (txt "+1"), (txt "+2"), (txt "ok" ++ [10; 62; 13] ++ pretty 0 [(txt "+2", txt "Alice")] (mkPmsg (txt "+2") [] None (txt "pay 100") 0)), 0,
    (mkPmsg (txt "+2") [] None (txt "pay 100") 0).
  split; [reflexivity|]. split; [discriminate|]. apply C214_forged; discriminate.
Qed.
(* The time is that of a clock with twelve hours and does not say which half of the day is meant. *)
Theorem C214_half_day : forall zone ts, 0 <= ts -> ts + 43200000 < 9223372036854 -> 
  let day := fun t => (t / 1000 + zone) / 86400 in day (ts + 43200000) = day ts ->
  timestamp zone (ts + 43200000) = timestamp zone ts.
Proof.
  intros zone ts H0 H1. cbv zeta beta. intros D.
  assert (W : forall t, 0 <= t < 9223372036854 -> wrap64 (wrap64 t * 1000000) / 1000000000 = t / 1000).
  { intros t Ht. assert (E1 : wrap64 t = t) by (unfold wrap64; rewrite Z.mod_small; lia). rewrite E1.
    assert (E2 : wrap64 (t * 1000000) = t * 1000000) by (unfold wrap64; rewrite Z.mod_small; lia). rewrite E2. lia. }
  unfold timestamp. rewrite !W by lia. cbv zeta. rewrite D.
  assert (E : (ts + 43200000) / 1000 = ts / 1000 + 43200) by lia. rewrite E in D |- *. clear W E.
  replace (ts / 1000 + 43200 + zone) with (ts / 1000 + zone + 43200) in D |- * by lia. revert D. generalize (ts / 1000 + zone) as s. intros s D.
  assert (M : (s + 43200) mod 86400 = s mod 86400 + 43200) by lia. rewrite M.
  assert (Q : (s mod 86400 + 43200) / 3600 = s mod 86400 / 3600 + 12) by lia. rewrite Q.
  assert (R : (s + 43200) mod 3600 = s mod 3600) by lia. rewrite R.
  assert (X : hour12 (s mod 86400 / 3600 + 12) = hour12 (s mod 86400 / 3600)).
  { unfold hour12. assert (Y : (s mod 86400 / 3600 + 12) mod 12 = s mod 86400 / 3600 mod 12) by (generalize (s mod 86400 / 3600); intros; lia). now rewrite Y. }
  rewrite X. reflexivity.
Qed.
Theorem C214_time_refuted : exists zone ts ts', ts' - ts = 12 * 3600 * 1000 /\ timestamp zone ts = txt "Mon 03:04" /\ timestamp zone ts' = txt "Mon 03:04".
Proof. exists 3600, 1136167440000, 1136210640000. split; [reflexivity|]. split; vm_compute; reflexivity. Qed.
(* C214. What is printed of the time is the day of the week, the hour on a clock with twelve hours and the minute, where
   the user is: zone seconds east of Greenwich; 1 January 1970 was a Thursday. *)
Definition reading (b : bytes) (v : Z) : Prop := exists x y, b = [48 + x; 48 + y] /\ 0 <= x <= 9 /\ 0 <= y <= 9 /\ v = 10 * x + y.
Definition week : list string := ["Thu"; "Fri"; "Sat"; "Sun"; "Mon"; "Tue"; "Wed"]%string.
Theorem C214_clock : forall zone ts, 0 <= ts < 9223372036854 ->
  exists day hh mm h, nth_error week (Z.to_nat ((ts / 1000 + zone) / 86400 mod 7)) = Some day /\
    timestamp zone ts = txt day ++ txt " " ++ hh ++ txt ":" ++ mm /\
    reading hh h /\ 1 <= h <= 12 /\ h mod 12 = (ts / 1000 + zone) / 3600 mod 12 /\ reading mm ((ts / 1000 + zone) / 60 mod 60).
Proof.
  intros zone ts Ht.
  assert (W : wrap64 (wrap64 ts * 1000000) / 1000000000 = ts / 1000).
  { assert (E1 : wrap64 ts = ts) by (unfold wrap64; rewrite Z.mod_small; lia). rewrite E1.
    assert (E2 : wrap64 (ts * 1000000) = ts * 1000000) by (unfold wrap64; rewrite Z.mod_small; lia). rewrite E2. lia. }
  unfold timestamp. rewrite W. cbv zeta. set (sec := ts / 1000 + zone).
  assert (R : forall v, 0 <= v < 100 -> reading (two v) v).
  { intros v Hv. exists (v / 10), (v mod 10). unfold two. split; [reflexivity|]. lia. }
  assert (D : exists day, nth_error week (Z.to_nat (sec / 86400 mod 7)) = Some day /\ weekday (sec / 86400) = txt day).
  { generalize (sec / 86400). intros d. assert (K : d mod 7 = 0 \/ d mod 7 = 1 \/ d mod 7 = 2 \/ d mod 7 = 3 \/ d mod 7 = 4 \/ d mod 7 = 5 \/ d mod 7 = 6) by lia.
    unfold weekday.
    destruct K as [K|[K|[K|[K|[K|[K|K]]]]]];
      [replace ((d + 4) mod 7) with 4 by lia|replace ((d + 4) mod 7) with 5 by lia|replace ((d + 4) mod 7) with 6 by lia|replace ((d + 4) mod 7) with 0 by lia
      |replace ((d + 4) mod 7) with 1 by lia|replace ((d + 4) mod 7) with 2 by lia|replace ((d + 4) mod 7) with 3 by lia]; rewrite K;
      eexists; (split; [reflexivity|vm_compute; reflexivity]). }
  destruct D as (day & D1 & D2). exists day, (two (hour12 (sec mod 86400 / 3600))), (two (sec mod 3600 / 60)), (hour12 (sec mod 86400 / 3600)).
  assert (H12 : 1 <= hour12 (sec mod 86400 / 3600) <= 12 /\ hour12 (sec mod 86400 / 3600) mod 12 = sec / 3600 mod 12).
  { assert (E : sec mod 86400 / 3600 = sec / 3600 mod 24) by (clear; lia). rewrite E. generalize (sec / 3600). intros q. unfold hour12.
    assert (E' : q mod 24 mod 12 = q mod 12) by (clear; lia). rewrite E'. destruct (Z.eqb_spec (q mod 12) 0) as [e|n]; [clear -e; split; [lia|rewrite e; reflexivity]|clear -n; split; [lia|apply Z.mod_mod; lia]]. }
  split; [exact D1|]. split; [rewrite D2; reflexivity|]. split; [apply R; lia|]. split; [apply H12|]. split; [apply H12|].
  assert (E : sec / 60 mod 60 = sec mod 3600 / 60) by (clear; lia). rewrite E. apply R. clear. lia.
Qed.
Print Assumptions C214_clock.
Print Assumptions C214_direct_partial.
Print Assumptions C214_named.
Print Assumptions C214_twice.
Print Assumptions C214_nobody.
Print Assumptions C214_sealed.
Print Assumptions C214_never_by_name.
Print Assumptions C214_who_refuted.
Print Assumptions C214_group_unseen.
Print Assumptions C214_group_refuted.
Print Assumptions C214_forged.
Print Assumptions C214_forged_refuted.
Print Assumptions C214_half_day.
Print Assumptions C214_time_refuted.

(* Example: two lines between people, one of them known by name; a time at which twelve hours are the same day; and one
   message printed twice without raw. *)
Example C214_example :
  let names := [(txt "+2", txt "Alice")] in
  pretty 0 names (mkPmsg (txt "+1") [] None (txt "hi there") 0) = txt "Thu 12:00 +1 hi there" /\
  pretty 0 names (mkPmsg (txt "+2") [] None (txt "hi") 59999) = txt "Thu 12:00 Alice hi" /\
  ~ In 32 (getName names (txt "+1")) /\ ~ In 32 (getName names (txt "+2")) /\
  (1136167440000 + 43200000) / 1000 / 86400 = 1136167440000 / 1000 / 86400 /\
  printed false 0 names (mkPmsg (txt "+2") [] (Some (txt "club")) (txt "hi") 0) =
    [13] ++ txt "Thu 12:00 Alice[club] hi" ++ [10; 62] ++ [13] ++ txt "Thu 12:00 Alice[club] hi" ++ [10; 62].
Proof.
  cbv zeta. split; [vm_compute; reflexivity|]. split; [vm_compute; reflexivity|]. split; [cbn; lia|]. split; [cbn; lia|]. split; [reflexivity|vm_compute; reflexivity].
Qed.
