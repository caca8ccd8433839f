(* Who can read what: properties C179 to C183. *)
From Coq Require Import ZArith List Lia Bool PeanoNat.
From Verif Require Import Bytes Res Wire Crypto Cbc Messages MessagesProofs Session SessionProofs
  Builder Conversation ConversationProofs Examples PropConversation PropErasure Secrecy SecrecyProofs SecrecyLink.
Import ListNotations.
Open Scope Z_scope.

(* ------------------------------------------------------------------------------------------ *)
(* A schedule in which only parties with a session send (textsecure.go never sends otherwise) *)
Fixpoint sensible (sp : spec) (acts : list action) : Prop :=
  match acts with
  | [] => True
  | a :: t =>
      match a with
      | Send x pt => sp_epoch sp x <> 0%nat /\ wfb pt /\ zlen pt < 2 ^ 60
      | _ => True
      end /\ sensible (spec_step sp a) t
  end.
(* stores copied: after so many steps, whose *)
Definition snapshots (acts : list action) (copies : list (nat * side)) : list (spec * side) :=
  map (fun c => (spec_run spec0 (firstn (fst c) acts), snd c)) copies.
(* somebody who sees all messages and has the copies can compute t *)
Definition learns (otk last : bool) (I : info) (acts : list action) (copies : list (nat * side)) (t : term) : Prop :=
  knows (view otk last I (sp_sent (spec_run spec0 acts)) (snapshots acts copies)) t.

Lemma admissible_sensible C st acts : forall y sp, admissible C st y sp acts -> sensible sp acts.
Proof.
  induction acts as [|a acts IH]; intros y sp H; [exact Logic.I|]. destruct H as [H1 H2]. split; [|exact (IH _ _ H2)].
  destruct a; try exact Logic.I. exact H1.
Qed.
Lemma step_ok sp a : spec_ok sp ->
  match a with Send x pt => sp_epoch sp x <> 0%nat /\ wfb pt /\ zlen pt < 2 ^ 60 | _ => True end ->
  spec_ok (spec_step sp a).
Proof.
  intros K H. destruct a as [x pt|j rnd|]; [destruct H as (H1 & H2 & H3); now apply spec_send_ok| |exact K].
  destruct (deliverable sp j) eqn:Ed.
  - destruct (deliverable_inv _ _ Ed) as (m & Hm & _). rewrite (spec_deliver_eq sp j rnd m Ed Hm).
    now apply spec_deliver_ok.
  - cbn [spec_step]. now rewrite Ed.
Qed.
Lemma sensible_ok acts : forall sp, spec_ok sp -> sensible sp acts -> spec_ok (spec_run sp acts).
Proof.
  induction acts as [|a acts IH]; intros sp K H; [exact K|]. destruct H as [H1 H2]. apply IH; [now apply step_ok|exact H2].
Qed.
Lemma sensible_firstn n : forall acts sp, sensible sp acts -> sensible sp (firstn n acts).
Proof.
  induction n as [|n IH]; intros acts sp H; [exact Logic.I|]. destruct acts as [|a acts]; [exact Logic.I|].
  destruct H as [H1 H2]. cbn [firstn sensible]. split; [exact H1|now apply IH].
Qed.
Lemma sent_step sp a j m : nth_error (sp_sent sp) j = Some m -> nth_error (sp_sent (spec_step sp a)) j = Some m.
Proof.
  intros H. destruct a as [x pt|i rnd|]; cbn [spec_step]; auto.
  - cbn [sp_sent]. rewrite nth_error_app1; auto. apply nth_error_Some. congruence.
  - destruct (deliverable sp i); auto. destruct (nth_error (sp_sent sp) i); auto. cbv zeta. destruct (_ <? _)%nat; exact H.
Qed.
Lemma sent_run acts : forall sp j m, nth_error (sp_sent sp) j = Some m -> nth_error (sp_sent (spec_run sp acts)) j = Some m.
Proof. induction acts as [|a acts IH]; intros sp j m H; [exact H|]. apply IH. now apply sent_step. Qed.

Section Acts.
Variable acts : list action.
Hypothesis SE : sensible spec0 acts.
Notation at_ n := (spec_run spec0 (firstn n acts)).
Notation sent := (sp_sent (spec_run spec0 acts)).

Lemma ok_at n : spec_ok (at_ n).
Proof. apply sensible_ok; [exact spec0_ok|]. now apply sensible_firstn. Qed.
Lemma ok_end : spec_ok (spec_run spec0 acts).
Proof. apply sensible_ok; [exact spec0_ok|exact SE]. Qed.
Lemma sent_pos j m : nth_error sent j = Some m -> sm_epoch m <> 0%nat.
Proof. intros H. destruct (sk_sent _ ok_end _ _ H) as (_ & H1 & _). lia. Qed.
Lemma sent_at n j m : nth_error (sp_sent (at_ n)) j = Some m -> nth_error sent j = Some m.
Proof.
  intros H. rewrite <- (firstn_skipn n acts). unfold spec_run. rewrite fold_left_app. now apply (sent_run (skipn n acts)).
Qed.
Lemma in_snap copies sp x : In (sp, x) (snapshots acts copies) -> exists n, In (n, x) copies /\ sp = at_ n.
Proof.
  unfold snapshots. rewrite in_map_iff. intros ((n & x') & E & H). cbn [fst snd] in E. injection E as <- <-. eauto.
Qed.
Lemma snap_in copies n x : In (n, x) copies -> In (at_ n, x) (snapshots acts copies).
Proof. intros H. unfold snapshots. apply in_map_iff. exists (n, x). auto. Qed.

(* where the parties are once a message has been read *)
Lemma after_read n j m : nth_error sent j = Some m -> In j (sp_got (at_ n)) ->
  let k := sm_epoch m in let i := sm_idx m in let sp := at_ n in
  read sp k i /\ (i < sp_next sp k)%nat /\
  owner k = sm_from m /\ (k <= sp_epoch sp (sm_from m))%nat /\ (k < sp_epoch sp (other (sm_from m)))%nat /\
  (sp_epoch sp (sm_from m) = k -> (i < sp_count sp (sm_from m))%nat) /\ (2 <= sp_epoch sp SB)%nat.
Proof.
  intros Hj Hg. cbv zeta. pose proof (ok_at n) as K. destruct (sk_got _ K _ Hg) as (m' & E1 & E2).
  pose proof (sent_at n j m' E1) as E3. rewrite Hj in E3. injection E3 as <-.
  destruct (sk_sent _ K _ _ E1) as (A1 & A2 & A3 & _).
  assert (HR : (sm_epoch m < sp_epoch (at_ n) (other (sm_from m)))%nat).
  { assert (~ (sp_epoch (at_ n) (other (sm_from m)) < sm_epoch m)%nat).
    { intros Hl. pose proof (sk_new _ K (sm_epoch m)) as HN. rewrite A1 in HN. specialize (HN Hl). lia. }
    assert (sp_epoch (at_ n) (other (sm_from m)) <> sm_epoch m); [|lia].
    intros Heq. pose proof (sk_own _ K (other (sm_from m))) as HO. rewrite Heq, A1 in HO. now destruct (sm_from m). }
  split; [exists j, m; auto|]. split; [exact E2|]. split; [exact A1|]. split; [lia|]. split; [exact HR|].
  split; [intros Heq; apply A3; congruence|].
  pose proof (sk_own _ K SB) as HO. destruct (sm_from m) eqn:Ef; cbn [other] in HR.
  - lia.
  - destruct (Nat.eq_dec (sp_epoch (at_ n) SB) 1) as [E|E]; [rewrite E in HO; discriminate HO|lia].
Qed.

(* a computable root key comes from a copy at that key or an earlier one, or from the first *)
Lemma root_leak_from otk last lk k : root_leak otk last lk k ->
  (exists sp x, In (sp, x) lk /\ (1 <= sp_epoch sp x <= k)%nat) \/
  (first_leak otk last lk).
Proof.
  induction 1.
  - now right.
  - left. exists sp, x. split; [exact H|]. lia.
  - destruct IHroot_leak as [(sp & x & H1 & H2)|H1]; [left; exists sp, x; split; [exact H1|lia]|now right].
Qed.
(* root keys k and later need a copied ratchet key or root key not older than k - 1 *)
Lemma root_leak_gap otk last lk k : root_leak otk last lk k -> (2 <= k)%nat ->
  exists sp x, In (sp, x) lk /\ (sp_epoch sp x = k \/ sp_epoch sp x = k - 1)%nat.
Proof.
  intros H Hk. destruct H.
  - lia.
  - eauto.
  - destruct k as [|k]; [lia|]. destruct H0 as [(sp & x & H1 & H2)|(sp & x & H1 & H2)]; exists sp, x; split; auto; lia.
Qed.
Lemma key_leak_from lk k : (1 <= k)%nat -> key_leak lk k -> exists sp x, In (sp, x) lk /\ sp_epoch sp x = k.
Proof. intros H HK. destruct k; [lia|exact HK]. Qed.
End Acts.

(* ------------------------------------------------------------------------------------------ *)
(* C179. All that crosses the network and all that is stored, in every conversation, is the values of
   the terms of Secrecy.v, under the keys the parties actually drew: message j is t_wire j, and after
   any part of the schedule a party holds the values of the stored terms and public values, and
   nothing else. *)
Theorem C179_messages_and_stores : forall C, crypto_ok C -> forall st, setup_ok C st -> no_history st ->
  forall acts, good_schedule C st acts -> admissible C st (start C st) spec0 acts ->
  let sent := sp_sent (spec_run spec0 acts) in
  let ev := eval C (the_env st (privs st acts) sent) in
  exists I,
    (length (y_net (run C st (start C st) acts)) = length sent /\
     forall j m, nth_error sent j = Some m -> exists ty,
       nth_error (y_net (run C st (start C st) acts)) j = Some (sm_from m, ty, ev (t_wire (with_otk st) I j m))) /\
    (forall n x, let w := y_w (run C st (start C st) (firstn n acts)) x in
       let has := stored (with_otk st) (last_resort st) (spec_run spec0 (firstn n acts)) x in
       (forall b, held st w x b -> exists t, (has t \/ open t) /\ ev t = b) /\
       (forall t, has t -> held st w x (ev t))).
Proof.
  intros C OK st SO NH acts HG HA sent ev.
  destruct (network_explained C OK st SO acts HG HA) as (I & _ & _ & _ & HN). exists I. split; [exact HN|].
  intros n x w has. unfold ev, w, has. clear ev w has. rewrite <- (firstn_skipn n acts) in HG, HA.
  split.
  - intros b Hb. pose proof (stores_explained C OK st SO _ _ NH HG HA sent x b Hb) as HX.
    rewrite (firstn_skipn n acts) in HX. exact HX.
  - intros t Ht. pose proof (stored_held C OK st SO _ _ HG HA sent x t Ht) as HX.
    rewrite (firstn_skipn n acts) in HX. exact HX.
Qed.
Print Assumptions C179_messages_and_stores.

(* ------------------------------------------------------------------------------------------ *)
(* C180. Whoever sees all messages and copies any stores at any moments can compute the text of a
   message exactly if the copies expose its place; with no copies, of none. *)
Theorem C180_exactly_exposed : forall otk last I acts copies j m, sensible spec0 acts ->
  nth_error (sp_sent (spec_run spec0 acts)) j = Some m ->
  (learns otk last I acts copies (TText j) <->
   exposed otk last (snapshots acts copies) (sm_epoch m) (sm_idx m)).
Proof.
  intros otk last I acts copies j m SE Hj. apply secrecy_exact; [|exact Hj]. intros j' m' H. eapply sent_pos; eauto.
Qed.
Print Assumptions C180_exactly_exposed.

Theorem C180_no_copies : forall otk last I acts j m, sensible spec0 acts ->
  nth_error (sp_sent (spec_run spec0 acts)) j = Some m -> ~ learns otk last I acts [] (TText j).
Proof.
  intros otk last I acts j m SE Hj H. apply (C180_exactly_exposed _ _ _ _ _ _ _ SE Hj) in H.
  assert (HR : forall k, ~ root_leak otk last [] k).
  { intros k Hk. induction Hk; auto. destruct H0 as (sp & [] & _). }
  destruct H as [[sp x [] |sp x [] |sp _ [] |Hr _]|sp x []]. now apply HR in Hr.
Qed.
Print Assumptions C180_no_copies.

(* ------------------------------------------------------------------------------------------ *)
(* C181. Forward secrecy: a text that had been read before any store was copied stays unreadable. It
   needs two conditions that the protocol does not ask for: for the first message of each direction
   (keys 1 and 2) a one-time prekey that is not the last-resort one, which the protocol does ask for;
   and for A's first chain that A is past key 9, because of ratchet.go 200. *)
Theorem C181_forward_secrecy_partial : forall otk last I acts copies j m, sensible spec0 acts ->
  nth_error (sp_sent (spec_run spec0 acts)) j = Some m ->
  (forall n x, In (n, x) copies -> In j (sp_got (spec_run spec0 (firstn n acts)))) ->
  ((sm_epoch m <= 2)%nat -> otk = true /\ last = false) ->
  (sm_epoch m = 1%nat -> forall n, In (n, SA) copies -> (9 < sp_epoch (spec_run spec0 (firstn n acts)) SA)%nat) ->
  ~ learns otk last I acts copies (TText j).
Proof.
  intros otk last I acts copies j m SE Hj HL HO HF H.
  apply (C180_exactly_exposed _ _ _ _ _ _ _ SE Hj) in H.
  pose proof (sent_pos acts SE j m Hj) as Hk0. set (k := sm_epoch m) in *. set (i := sm_idx m) in *.
  assert (AR : forall sp x, In (sp, x) (snapshots acts copies) ->
     read sp k i /\ (i < sp_next sp k)%nat /\ (k <= sp_epoch sp (sm_from m))%nat /\
     (k < sp_epoch sp (other (sm_from m)))%nat /\
     (sp_epoch sp (sm_from m) = k -> (i < sp_count sp (sm_from m))%nat) /\ (2 <= sp_epoch sp SB)%nat).
  { intros sp x Hin. apply in_snap in Hin. destruct Hin as (n & Hn & ->).
    destruct (after_read acts SE n j m Hj (HL n x Hn)) as (B1 & B2 & _ & B3 & B4 & B5 & B6). auto 10. }
  assert (LE : forall sp x, In (sp, x) (snapshots acts copies) -> (k <= sp_epoch sp x)%nat).
  { intros sp x Hin. destruct (AR sp x Hin) as (_ & _ & B3 & B4 & _). destruct x, (sm_from m); cbn [other] in *; lia. }
  assert (HRoot : (k <= 2)%nat -> ~ first_leak otk last (snapshots acts copies)).
  { intros Hle (sp & Hin & [Ho|(sp' & Hin' & [Ho|Ho])]).
    - destruct (HO Hle). congruence.
    - destruct (AR sp' SB Hin') as (_ & _ & _ & _ & _ & B6). lia.
    - destruct (HO Hle). congruence. }
  destruct H as [[sp x Hin He Hc|sp x Hin He Hc|sp Hk Hin He|Hr Hke]|sp x Hin He Hlt Hnr].
  - destruct (AR sp x Hin) as (_ & _ & B3 & B4 & B5 & _).
    destruct x, (sm_from m); cbn [other] in *; try lia; specialize (B5 He); lia.
  - destruct (AR sp x Hin) as (_ & B2 & _). lia.
  - apply in_snap in Hin. destruct Hin as (n & Hn & ->). specialize (HF Hk n Hn).
    destruct He as (_ & _ & He). unfold kept in He. apply Nat.leb_le in He. lia.
  - destruct (le_lt_dec k 2) as [Hle|Hgt].
    + apply root_leak_from in Hr. destruct Hr as [(sp & x & Hin & Hb)|Hr]; [|now apply (HRoot Hle)].
      specialize (LE sp x Hin). lia.
    + apply root_leak_gap in Hr; [|lia]. destruct Hr as (sp & x & Hin & Hb). specialize (LE sp x Hin). lia.
  - destruct (AR sp x Hin) as (B1 & _). now apply Hnr.
Qed.
Print Assumptions C181_forward_secrecy_partial.

(* Without the second condition it is false, for every schedule: a copy of A's store while A is at
   key 9 or earlier opens every message A has sent or will send with key 1. *)
Theorem C181_first_chain_exposed : forall otk last I acts copies j m n, sensible spec0 acts ->
  nth_error (sp_sent (spec_run spec0 acts)) j = Some m -> sm_epoch m = 1%nat ->
  In (n, SA) copies -> (sp_epoch (spec_run spec0 (firstn n acts)) SA <= 9)%nat ->
  learns otk last I acts copies (TText j).
Proof.
  intros otk last I acts copies j m n SE Hj Hk Hn He.
  apply (C180_exactly_exposed _ _ _ _ _ _ _ SE Hj). apply ex_chain.
  eapply cl_first; [exact Hk|apply snap_in; exact Hn|].
  pose proof (ok_at acts SE n) as K. unfold at_epoch, kept. split.
  - pose proof (sk_own _ K SA) as HO. destruct (sp_epoch (spec_run spec0 (firstn n acts)) SA); [discriminate HO|lia].
  - split; [reflexivity|]. apply Nat.leb_le. lia.
Qed.
Print Assumptions C181_first_chain_exposed.

(* Without the first it is false too: with no one-time prekey, or with the last-resort one, a copy of
   B's store at any time opens every message of A's first chain. *)
Theorem C181_no_one_time_exposed : forall otk last I acts copies j m n, sensible spec0 acts ->
  nth_error (sp_sent (spec_run spec0 acts)) j = Some m -> sm_epoch m = 1%nat ->
  In (n, SB) copies -> otk = false \/ last = true ->
  learns otk last I acts copies (TText j).
Proof.
  intros otk last I acts copies j m n SE Hj Hk Hn Ho.
  apply (C180_exactly_exposed _ _ _ _ _ _ _ SE Hj). apply ex_chain. rewrite Hk. apply cl_root.
  - apply rl_first. exists (spec_run spec0 (firstn n acts)). split; [now apply snap_in|].
    destruct Ho as [Ho|Ho]; [now left|right]. exists (spec_run spec0 (firstn n acts)). split; [now apply snap_in|now right].
  - left. exists (spec_run spec0 (firstn n acts)). now apply snap_in.
Qed.
Print Assumptions C181_no_one_time_exposed.

(* ------------------------------------------------------------------------------------------ *)
(* C182. Healing: a text sent with a key two or more beyond that of every copied store is unreadable. *)
Theorem C182_healing : forall otk last I acts copies j m, sensible spec0 acts ->
  nth_error (sp_sent (spec_run spec0 acts)) j = Some m ->
  (forall n x, In (n, x) copies -> (sp_epoch (spec_run spec0 (firstn n acts)) x + 2 <= sm_epoch m)%nat) ->
  ~ learns otk last I acts copies (TText j).
Proof.
  intros otk last I acts copies j m SE Hj HL H.
  apply (C180_exactly_exposed _ _ _ _ _ _ _ SE Hj) in H. pose proof (sent_pos acts SE j m Hj) as Hk0.
  assert (AR : forall sp x, In (sp, x) (snapshots acts copies) -> (sp_epoch sp x + 2 <= sm_epoch m)%nat).
  { intros sp x Hin. apply in_snap in Hin. destruct Hin as (n & Hn & ->). eauto. }
  destruct H as [[sp x Hin He Hc|sp x Hin (He & _) Hc|sp Hk Hin He|Hr Hke]|sp x Hin (He & _) Hlt Hnr].
  - specialize (AR _ _ Hin). lia.
  - specialize (AR _ _ Hin). lia.
  - specialize (AR _ _ Hin). lia.
  - destruct (Nat.eq_dec (sm_epoch m) 1) as [E1|E1].
    + rewrite E1 in *. apply root_leak_from in Hr. destruct Hr as [(sp & x & Hin & _)|(sp & Hin & _)]; specialize (AR _ _ Hin); lia.
    + destruct Hke as [Hke|Hke]; (apply key_leak_from in Hke; [|lia]); destruct Hke as (sp & x & Hin & He); specialize (AR _ _ Hin); lia.
  - specialize (AR _ _ Hin). lia.
Qed.
Print Assumptions C182_healing.

(* Two is needed: a store copied at the key just before opens all messages of the next one. *)
Theorem C182_next_exposed : forall otk last I acts copies j m n x, sensible spec0 acts ->
  nth_error (sp_sent (spec_run spec0 acts)) j = Some m ->
  In (n, x) copies -> (1 <= sp_epoch (spec_run spec0 (firstn n acts)) x)%nat ->
  sm_epoch m = S (sp_epoch (spec_run spec0 (firstn n acts)) x) ->
  learns otk last I acts copies (TText j).
Proof.
  intros otk last I acts copies j m n x SE Hj Hn H1 He.
  apply (C180_exactly_exposed _ _ _ _ _ _ _ SE Hj). apply ex_chain. rewrite He. apply cl_root;
    rewrite Nat.sub_succ, Nat.sub_0_r.
  - apply rl_copied; [now apply snap_in|lia].
  - left. destruct (sp_epoch (spec_run spec0 (firstn n acts)) x) eqn:E; [lia|].
    exists (spec_run spec0 (firstn n acts)), x. split; [now apply snap_in|exact E].
Qed.
Print Assumptions C182_next_exposed.

(* Both at once: copies taken three or more keys before, and copies taken after the text was read. *)
Theorem C182_between_copies : forall otk last I acts copies j m, sensible spec0 acts ->
  nth_error (sp_sent (spec_run spec0 acts)) j = Some m -> (3 <= sm_epoch m)%nat ->
  (forall n x, In (n, x) copies -> (sp_epoch (spec_run spec0 (firstn n acts)) x + 3 <= sm_epoch m)%nat \/
     In j (sp_got (spec_run spec0 (firstn n acts)))) ->
  ~ learns otk last I acts copies (TText j).
Proof.
  intros otk last I acts copies j m SE Hj H3 HL H.
  apply (C180_exactly_exposed _ _ _ _ _ _ _ SE Hj) in H. set (k := sm_epoch m) in *. set (i := sm_idx m) in *.
  assert (AR : forall sp x, In (sp, x) (snapshots acts copies) -> (sp_epoch sp x + 3 <= k)%nat \/
     (read sp k i /\ (i < sp_next sp k)%nat /\ (k <= sp_epoch sp x)%nat /\
      (sp_epoch sp x = k -> (i < sp_count sp x)%nat))).
  { intros sp x Hin. apply in_snap in Hin. destruct Hin as (n & Hn & ->). destruct (HL n x Hn) as [HL'|HL']; [now left|right].
    destruct (after_read acts SE n j m Hj HL') as (B1 & B2 & _ & B3 & B4 & B5 & B6). split; [exact B1|]. split; [exact B2|].
    fold k in B3, B4, B5. destruct x, (sm_from m); cbn [other] in *; split; try lia; auto. }
  destruct H as [[sp x Hin He Hc|sp x Hin (He & _) Hc|sp Hk Hin He|Hr Hke]|sp x Hin (He & _) Hlt Hnr].
  - destruct (AR _ _ Hin) as [|(B1 & B2 & B3 & B4)]; [lia|]. specialize (B4 He). lia.
  - destruct (AR _ _ Hin) as [|(B1 & B2 & B3 & B4)]; lia.
  - lia.
  - apply root_leak_gap in Hr; [|lia]. destruct Hr as (sp & x & Hin & Hb).
    destruct (AR _ _ Hin) as [|(B1 & B2 & B3 & B4)]; lia.
  - destruct (AR _ _ Hin) as [|(B1 & B2 & B3 & B4)]; [lia|]. now apply Hnr.
Qed.
Print Assumptions C182_between_copies.

(* ------------------------------------------------------------------------------------------ *)
(* C183. A tag under the key of a place that is not exposed can only be had for the message that was
   sent there, byte for byte and in the same direction. *)
Theorem C183_tags : forall otk last I acts copies k i from body, sensible spec0 acts -> k <> 0%nat ->
  learns otk last I acts copies (t_tag otk k i from body) ->
  exposed otk last (snapshots acts copies) k i \/
  exists j m, nth_error (sp_sent (spec_run spec0 acts)) j = Some m /\ sm_epoch m = k /\ sm_idx m = i /\
    sm_from m = from /\ body = t_body otk I j m.
Proof.
  intros otk last I acts copies k i from body SE Hk H.
  apply (tag_exact otk last I (sp_sent (spec_run spec0 acts)) (snapshots acts copies)); auto.
  intros j m Hj. eapply sent_pos; eauto.
Qed.
Print Assumptions C183_tags.

(* ------------------------------------------------------------------------------------------ *)
(* Examples: the schedule of C02, and then an answer of B's that A reads *)
Definition ex_long : list action := ex_acts ++ [Send SB [7; 7]; Deliver 6 (fun _ => rb 109)].
Lemma ex_sensible : sensible spec0 ex_long.
Proof.
  assert (W : forall l, wfbb l = true -> wfb l) by exact wfbb_ok. unfold ex_long, ex_acts. cbn [app].
  repeat (match goal with
   | |- sensible _ [] => exact Logic.I
   | |- sensible _ (_ :: _) => split
   | |- True => exact Logic.I
   | |- _ /\ wfb _ /\ _ => split; [vm_compute; congruence|split; [apply W; reflexivity|reflexivity]]
   end).
Qed.
Definition ex_info : info := mkInfo (fun _ => 0) (w_reg (st_w ex_setup SA)) (st_pkid ex_setup) (st_spkid ex_setup).

(* the first message is the value of its term, and after four steps B's record has the second root key *)
Example C179_example :
  good_schedule toy ex_setup ex_acts /\ admissible toy ex_setup (start toy ex_setup) spec0 ex_acts /\
  no_history ex_setup /\
  (let e := the_env ex_setup (privs ex_setup ex_acts) (sp_sent (spec_run spec0 ex_acts)) in
   nth_error (y_net (run toy ex_setup (start toy ex_setup) ex_acts)) 0
   = Some (SA, PREKEY_BUNDLE, eval toy e (t_wire (with_otk ex_setup) ex_info 0 (mkSmsg SA 1 0 [1]))) /\
   option_map (fun v => s_root (fst v)) (w_sess (y_w (run toy ex_setup (start toy ex_setup) (firstn 4 ex_acts)) SB) na 1)
   = Some (eval toy e (t_root (with_otk ex_setup) 2)) /\
   stored (with_otk ex_setup) (last_resort ex_setup) (spec_run spec0 (firstn 4 ex_acts)) SB (t_root (with_otk ex_setup) 2)).
Proof.
  destruct C02_example as (H1 & H2 & _). split; [exact H1|]. split; [exact H2|]. split; [exact ex_no_history|].
  cbv zeta. split; [vm_compute; reflexivity|]. split; [vm_compute; reflexivity|].
  apply (st_root _ _ (spec_run spec0 (firstn 4 ex_acts)) SB). vm_compute. discriminate.
Qed.

(* B's first answer, which A has skipped when it reads the second: its key is in A's store then, so a
   copy opens it; a copy made after it was read does not *)
Example C180_example : nth_error (sp_sent (spec_run spec0 ex_long)) 3 = Some (mkSmsg SB 2 0 [10]) /\
  (forall I, learns true false I ex_long [(8%nat, SA)] (TText 3)) /\
  (forall I, ~ learns true false I ex_long [(14%nat, SA)] (TText 3)).
Proof.
  assert (HJ : nth_error (sp_sent (spec_run spec0 ex_long)) 3 = Some (mkSmsg SB 2 0 [10])) by (vm_compute; reflexivity).
  split; [exact HJ|]. split; intros I.
  - apply (C180_exactly_exposed _ _ _ _ _ _ _ ex_sensible HJ).
    apply (ex_skipped _ _ _ _ _ (spec_run spec0 (firstn 8 ex_long)) SA).
    + apply snap_in. now left.
    + unfold at_epoch. vm_compute. auto.
    + vm_compute. auto.
    + intros (j & m & Hg & Hj & He & Hi). vm_compute in Hg.
      destruct Hg as [<-|[<-|[<-|[]]]]; vm_compute in Hj; injection Hj as <-; cbn in He, Hi; discriminate.
  - refine (C181_forward_secrecy_partial _ _ _ _ _ _ _ ex_sensible HJ _ _ _).
    + intros n x [H|[]]. injection H as <- <-. vm_compute. auto.
    + auto.
    + intros H. discriminate H.
Qed.

(* A's fourth text: read, then both stores are copied *)
Example C181_example : nth_error (sp_sent (spec_run spec0 ex_long)) 5 = Some (mkSmsg SA 3 0 [4; 5; 6]) /\
  (forall n x, In (n, x) [(12%nat, SA); (14%nat, SB)] -> In 5%nat (sp_got (spec_run spec0 (firstn n ex_long)))) /\
  (* whereas A's first text, read as well, is opened by a copy of A's store at the end *)
  nth_error (sp_sent (spec_run spec0 ex_long)) 0 = Some (mkSmsg SA 1 0 [1]) /\
  In 0%nat (sp_got (spec_run spec0 (firstn 16 ex_long))) /\
  (forall otk last I, learns otk last I ex_long [(16%nat, SA)] (TText 0)).
Proof.
  split; [vm_compute; reflexivity|]. split.
  { intros n x [H|[H|[]]]; injection H as <- <-; vm_compute; auto 7. }
  split; [vm_compute; reflexivity|]. split; [vm_compute; auto 9|]. intros otk last I.
  apply (C181_first_chain_exposed otk last I ex_long [(16%nat, SA)] 0 (mkSmsg SA 1 0 [1]) 16 ex_sensible).
  - vm_compute; reflexivity.
  - reflexivity.
  - now left.
  - vm_compute. auto 10.
Qed.
Theorem C181_forward_secrecy_refuted : exists otk last I acts copies j m, sensible spec0 acts /\
  otk = true /\ last = false /\ nth_error (sp_sent (spec_run spec0 acts)) j = Some m /\
  (forall n x, In (n, x) copies -> In j (sp_got (spec_run spec0 (firstn n acts)))) /\
  learns otk last I acts copies (TText j).
Proof.
  exists true, false, ex_info, ex_long, [(16%nat, SA)], 0%nat, (mkSmsg SA 1 0 [1]).
  destruct C181_example as (_ & _ & H1 & H2 & H3). split; [exact ex_sensible|]. split; [reflexivity|]. split; [reflexivity|].
  split; [exact H1|]. split; [|apply H3]. intros n x [H|[]]. injection H as <- <-. exact H2.
Qed.
Print Assumptions C181_forward_secrecy_refuted.

(* both stores copied at the start do not open A's fourth text; B's last text lies between copies *)
Example C182_example :
  nth_error (sp_sent (spec_run spec0 ex_long)) 5 = Some (mkSmsg SA 3 0 [4; 5; 6]) /\
  (forall n x, In (n, x) [(3%nat, SA); (3%nat, SB)] -> (sp_epoch (spec_run spec0 (firstn n ex_long)) x + 2 <= 3)%nat) /\
  nth_error (sp_sent (spec_run spec0 ex_long)) 6 = Some (mkSmsg SB 4 0 [7; 7]) /\
  (forall n x, In (n, x) [(3%nat, SA); (3%nat, SB); (16%nat, SA); (16%nat, SB)] ->
     (sp_epoch (spec_run spec0 (firstn n ex_long)) x + 3 <= 4)%nat \/
     In 6%nat (sp_got (spec_run spec0 (firstn n ex_long)))) /\
  (* while a copy of B's store at key 2 opens it *)
  (forall otk last I, learns otk last I ex_long [(5%nat, SB)] (TText 5)).
Proof.
  split; [vm_compute; reflexivity|]. split.
  { intros n x [H|[H|[]]]; injection H as <- <-; vm_compute; auto. }
  split; [vm_compute; reflexivity|]. split.
  { intros n x [H|[H|[H|[H|[]]]]]; injection H as <- <-; vm_compute; auto 6. }
  intros otk last I.
  apply (C182_next_exposed otk last I ex_long [(5%nat, SB)] 5 (mkSmsg SA 3 0 [4; 5; 6]) 5 SB ex_sensible).
  - vm_compute; reflexivity.
  - now left.
  - vm_compute; auto.
  - vm_compute; reflexivity.
Qed.

(* the tag of A's fourth text can be read off the network *)
Example C183_example : forall I, learns true false I ex_long []
  (t_tag true 3 0 SA (t_body true I 5 (mkSmsg SA 3 0 [4; 5; 6]))).
Proof.
  intros I. unfold learns. apply (k_right _ (t_body true I 5 (mkSmsg SA 3 0 [4; 5; 6]))). apply k_in.
  apply (v_wire true false I (sp_sent (spec_run spec0 ex_long)) (snapshots ex_long []) 5 (mkSmsg SA 3 0 [4; 5; 6])).
  vm_compute; reflexivity.
Qed.
