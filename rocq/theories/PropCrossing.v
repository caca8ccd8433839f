(* C168, C169: both write first; an archived session is taken up again *)
From Coq Require Import ZArith List Lia Bool.
From Verif Require Import Bytes Res Wire Crypto Cbc Messages Session Builder SessionProofs SessionFacts
  MessagesProofs History HistoryProofs Conversation ConversationProofs InOrder Examples
  PropHistory PropConversation PropErasure.
Import ListNotations.
Open Scope Z_scope.

(* ------------------------------------------------------------------------------------------ *)
(* C168. A and B, who never wrote to each other, fetch each other's bundle and build a session each.
   Then in every round each of them writes a text and after that each receives what the other wrote:
   nothing is lost, repeated or out of order. *)
Definition both (C : crypto) (s1 s2 : setup) : sys :=
  mkSys (fun x => match x with SA => y_w (start C s1) SA | SB => y_w (start C s2) SA end) [].
(* s2 is the same pair of clients, B being the one who writes first *)
Definition mirrored (s1 s2 : setup) : Prop :=
  forall x, st_w s2 x = st_w s1 (other x) /\ st_peer s2 x = st_peer s1 (other x).

(* the n-th round, the messages of which are 2n and 2n+1 *)
Definition round (n : nat) : list action :=
  [Send SA [Z.of_nat n]; Send SB [100 + Z.of_nat n];
   Deliver (2 * n) (fun i => rb (300 + 20 * Z.of_nat n + Z.of_nat i));
   Deliver (2 * n + 1) (fun i => rb (310 + 20 * Z.of_nat n + Z.of_nat i))].
Definition rounds (n : nat) : list action := flat_map round (seq 0 n).
Definition after_rounds (C : crypto) (s1 s2 : setup) (n : nat) : sys :=
  fold_left (step C (st_peer s1)) (rounds n) (both C s1 s2).
(* after n rounds and the texts of the next, what the receiver of message j gets *)
Definition reads (C : crypto) (s1 s2 : setup) (n j : nat) (rnd : nat -> bytes) : res bytes :=
  snd (fst (perform C (st_peer s1)
    (fold_left (step C (st_peer s1)) (firstn 2 (round n)) (after_rounds C s1 s2 n)) (Deliver j rnd))).

(* A's prekeys: one-time 7, signed 2 *)
Definition ex_worldA7 : world :=
  mkWorld (ex_kp 11) 1001 false (fun _ _ => None)
    (fun i => if i =? 7 then Some (ex_kp 57) else None)
    (fun i => if i =? 2 then Some (ex_kp 34) else None) (fun _ => None).
Definition ex_AB : setup :=
  mkSetup (st_peer ex_setup) (fun x => match x with SA => ex_worldA7 | SB => ex_worldB end)
    (ex_priv 33) 1 (Some (ex_priv 55)) 5 (st_sig ex_setup) (rb 77) (rb 88).
Definition ex_BA : setup :=
  mkSetup (fun x => st_peer ex_setup (other x)) (fun x => match x with SA => ex_worldB | SB => ex_worldA7 end)
    (ex_priv 34) 2 (Some (ex_priv 57)) 7
    (ex_sign (snd (ex_kp 11)) (key_ser (basepub toy (ex_priv 34)))) (rb 79) (rb 90).
Lemma ex_AB_ok : setup_ok toy ex_AB.
Proof.
  constructor; try (intros []; vm_compute; repeat split; congruence); try (vm_compute; repeat split; congruence).
Qed.
Lemma ex_BA_ok : setup_ok toy ex_BA.
Proof.
  constructor; try (intros []; vm_compute; repeat split; congruence); try (vm_compute; repeat split; congruence).
Qed.

(* Full statement: every text is read. It is false: the first two of each are, and none of the next
   three, whatever the randomness; nothing is stored in those rounds but the advanced sending chains,
   so that the two do not find back. *)
Theorem C168_crossing_refuted : exists C s1 s2,
  crypto_ok C /\ setup_ok C s1 /\ setup_ok C s2 /\ no_history s1 /\ no_history s2 /\ mirrored s1 s2 /\
  (forall rnd, map (fun n => reads C s1 s2 n (2 * n) rnd) [0; 1]%nat = [Ok [0]; Ok [1]]) /\
  (forall rnd, map (fun n => reads C s1 s2 n (2 * n + 1) rnd) [0; 1]%nat = [Ok [100]; Ok [101]]) /\
  (forall rnd n, (n = 2 \/ n = 3 \/ n = 4)%nat ->
     reads C s1 s2 n (2 * n) rnd = Err EInvalidMessage /\
     reads C s1 s2 n (2 * n + 1) rnd = Err EInvalidMessage).
Proof.
  exists toy, ex_AB, ex_BA. split; [exact toy_ok|]. split; [exact ex_AB_ok|]. split; [exact ex_BA_ok|].
  split; [intros []; reflexivity|]. split; [intros []; reflexivity|].
  split; [intros []; split; reflexivity|].
  assert (IND : forall n j rnd, reads toy ex_AB ex_BA n j rnd = reads toy ex_AB ex_BA n j (fun _ => rb 9)).
  { intros n j rnd. unfold reads, perform. set (y := fold_left _ _ _).
    destruct (nth_error (y_net y) j) as [[[f ty] b]|]; [|reflexivity].
    pose proof (receive_rnd toy (y_w y (other f)) (fst (st_peer ex_AB (other f))) (snd (st_peer ex_AB (other f))) ty b rnd (fun _ => rb 9)) as R.
    destruct (receive toy _ _ _ ty b rnd) as [r l]. destruct (receive toy _ _ _ ty b (fun _ => rb 9)) as [r' l'].
    cbn [fst snd] in *. exact R. }
  assert (MAP : forall f l rnd, map (fun n => reads toy ex_AB ex_BA n (f n) rnd) l
                = map (fun n => reads toy ex_AB ex_BA n (f n) (fun _ => rb 9)) l).
  { intros f l rnd. apply map_ext. intros n. apply IND. }
  split; [|split].
  - intros rnd. rewrite (MAP (fun n => (2 * n)%nat)). vm_compute. reflexivity.
  - intros rnd. rewrite (MAP (fun n => (2 * n + 1)%nat)). vm_compute. reflexivity.
  - intros rnd n H. rewrite (IND n (2 * n)%nat rnd), (IND n (2 * n + 1)%nat rnd). destruct H as [->|[->| ->]]; split; vm_compute; reflexivity.
Qed.
Print Assumptions C168_crossing_refuted.

(* ------------------------------------------------------------------------------------------ *)
(* C169. x's session with the peer has been archived, for whatever reason (x has built another one, or
   the peer's own first message has come in between), so that x's record has other states in front
   of it. When the peer goes on using it, x reads the message and takes the session up again, and
   from then on everything is as C02 says. The states in front have to refuse the message; that they
   do is a matter of the MAC. *)
Section P.
Variable C : crypto.
Hypothesis OK : crypto_ok C.
Variable st : setup.
Hypothesis SO : setup_ok C st.

Lemma inv_swap eps y sp acts x s p y2 p' :
  Inv C st eps y sp acts -> sp_epoch sp x <> 0%nat ->
  w_sess (y_w y x) (fst (st_peer st x)) (snd (st_peer st x)) = Some (s, p) ->
  world_ok st (y_w y2 x) x -> w_sess (y_w y2 x) (fst (st_peer st x)) (snd (st_peer st x)) = Some (s, p') ->
  (no_history st -> p' = []) -> y_w y2 (other x) = y_w y (other x) -> y_net y2 = y_net y ->
  Inv C st eps y2 sp acts.
Proof.
  intros IV Hn Hs Hw Hw' NH Ho En. destruct IV as [I1 I2 I3 I4 I5 I6 I7 I8].
  assert (Z : forall z, z = x \/ z = other x) by (intros z; destruct x, z; auto).
  constructor; rewrite ?En; auto.
  - intros z. destruct (Z z) as [->| ->]; auto. rewrite Ho. auto.
  - intros z. destruct (Z z) as [->| ->]; [|rewrite Ho; auto].
    specialize (I5 x). unfold sess_ok, rid, dev in *. destruct (sp_epoch sp x) as [|n]; [congruence|].
    destruct I5 as (s0 & p0 & H1 & H2 & H3). rewrite Hs in H1. injection H1 as <- <-. exists s, p'. auto.
Qed.

Definition refuses (t : sstate) (m : wmsg) (rnd : bytes) : Prop := exists e t', ss_decrypt C t m rnd = (Err e, t').

Lemma try_prevs_found m rnd s s1 pt ps2 : forall ps1 i,
  (forall k t, nth_error ps1 k = Some t -> refuses t m (rnd (i + k)%nat)) ->
  ss_decrypt C s m (rnd (i + length ps1)%nat) = (Ok pt, s1) ->
  exists l, try_prevs C (ps1 ++ s :: ps2) m rnd i = (Ok (Some (pt, s1)), l).
Proof.
  induction ps1 as [|t ps1 IH]; intros i HR HD; cbn [app try_prevs].
  - cbn [length] in HD. rewrite Nat.add_0_r in HD. rewrite HD. eauto.
  - destruct (HR 0%nat t eq_refl) as (e & t' & Ht). rewrite Nat.add_0_r in Ht. rewrite Ht.
    destruct (IH (S i)) as (l & ->); [|cbn [length] in HD; now rewrite Nat.add_succ_r in HD|eauto].
    intros k t2 Hk. specialize (HR (S k) t2 Hk). now rewrite Nat.add_succ_r in HR.
Qed.

Lemma resume eps y sp acts j m b x s p c ps1 ps2 w rnd wm :
  let rnd1 := fun _ : nat => rnd (S (length ps1)) in
  Inv C st eps y sp (Deliver j rnd1 :: acts) -> ~ no_history st ->
  length (rnd (S (length ps1))) = 32%nat -> deliverable sp j = true ->
  nth_error (sp_sent sp) j = Some m -> x = other (sm_from m) ->
  nth_error (y_net y) j = Some (sm_from m, CIPHERTEXT, b) -> LoadWhisperMessage b = Ok wm ->
  w_sess (y_w y x) (fst (st_peer st x)) (snd (st_peer st x)) = Some (s, p) ->
  sp_epoch sp x <> 0%nat ->
  world_ok st w x ->
  w_sess w (fst (st_peer st x)) (snd (st_peer st x)) = Some (c, ps1 ++ s :: ps2) ->
  (forall k t, nth_error (c :: ps1) k = Some t -> refuses t wm (rnd k)) ->
  let y' := mkSys (upd_side (y_w y) x w) (y_net y) in
  exists l eps', perform C (st_peer st) y' (Deliver j rnd) = (x, Ok (sm_pt m), l) /\
    Inv C st eps' (step C (st_peer st) y' (Deliver j rnd)) (spec_step sp (Deliver j rnd)) acts.
Proof.
  intros rnd1 IV NH Hr Hd Hm Hx Hnet HL Hs Hn Hw Hw' HR y'.
  (* the same with x's record cut down to s *)
  set (w0 := set_sess (y_w y x) (fst (st_peer st x)) (snd (st_peer st x)) (Some (s, []))).
  assert (WO0 : world_ok st w0 x).
  { destruct (iv_world _ _ _ _ _ _ IV x) as [W1 W2 W3 W4]. constructor; auto. }
  assert (S0 : w_sess w0 (fst (st_peer st x)) (snd (st_peer st x)) = Some (s, [])) by apply set_sess_same.
  set (y0 := mkSys (upd_side (y_w y) x w0) (y_net y)).
  assert (Y0 : y_w y0 x = w0) by (cbn; unfold upd_side; now rewrite side_eqb_refl).
  assert (O0 : y_w y0 (other x) = y_w y (other x)) by (cbn; unfold upd_side; now destruct x).
  assert (IV0 : Inv C st eps y0 sp (Deliver j rnd1 :: acts)).
  { apply (inv_swap eps y sp _ x s p y0 []); auto; rewrite Y0; auto. }
  destruct (deliver_step C OK st SO _ _ _ _ _ _ IV0 Hr Hd) as (m' & l0 & eps' & Hm' & HP & IV').
  rewrite Hm in Hm'. injection Hm' as <-. rewrite <- Hx in HP.
  assert (Y1 : y_w y' x = w) by (cbn; unfold upd_side; now rewrite side_eqb_refl).
  assert (HP' := HP). unfold perform in HP'. cbn [y_net y0] in HP'. rewrite Hnet in HP'. cbv zeta in HP'.
  fold y0 in HP'. rewrite <- Hx, Y0 in HP'. cbn [receive] in HP'. rewrite HL in HP'.
  unfold SessionDecryptWhisperMessage, LoadSession in HP'. rewrite S0 in HP'.
  unfold sc_decrypt in HP'. cbn [r_cur r_prevs r_fresh try_prevs] in HP'.
  destruct (ss_decrypt C s wm (rnd1 0%nat)) as [[pt|e|] s1] eqn:ED; [|discriminate|discriminate].
  injection HP' as -> <-.
  (* now in the record as it is *)
  destruct (HR 0%nat c eq_refl) as (e0 & c' & Hc).
  destruct (try_prevs_found wm rnd s s1 (sm_pt m) ps2 ps1 1%nat) as (l & HT).
  { intros k t Hk. exact (HR (S k) t Hk). }
  { exact ED. }
  assert (HPx : exists p1, perform C (st_peer st) y' (Deliver j rnd) = (x, Ok (sm_pt m),
            [EStoreSession (fst (st_peer st x)) (snd (st_peer st x)) s1 p1])).
  { unfold perform. cbn [y_net y']. rewrite Hnet. cbv zeta. fold y'. rewrite <- Hx, Y1.
    cbn [receive]. rewrite HL. unfold SessionDecryptWhisperMessage, LoadSession. rewrite Hw'.
    unfold sc_decrypt. cbn [r_cur r_prevs r_fresh]. rewrite Hc, HT. eexists. reflexivity. }
  destruct HPx as (p1 & HPx). exists [EStoreSession (fst (st_peer st x)) (snd (st_peer st x)) s1 p1], eps'.
  split; [exact HPx|].
  assert (SP : spec_step sp (Deliver j rnd) = spec_step sp (Deliver j rnd1)) by reflexivity.
  rewrite SP.
  set (z0 := step C (st_peer st) y0 (Deliver j rnd1)) in *.
  set (z1 := step C (st_peer st) y' (Deliver j rnd)).
  assert (EN : sp_epoch (spec_step sp (Deliver j rnd1)) x <> 0%nat).
  { cbn [spec_step]. rewrite Hd, Hm. cbv zeta. rewrite <- Hx.
    destruct (_ <? _)%nat; cbn [sp_epoch]; auto. unfold upd_side. rewrite side_eqb_refl. discriminate. }
  assert (X1 : y_w z0 x = apply_effs w0 [EStoreSession (fst (st_peer st x)) (snd (st_peer st x)) s1 []]).
  { unfold z0, step. rewrite HP. cbn [y_w]. unfold upd_side at 1. now rewrite side_eqb_refl, Y0. }
  assert (X2 : y_w z1 x = apply_effs w [EStoreSession (fst (st_peer st x)) (snd (st_peer st x)) s1 p1]).
  { unfold z1, step. rewrite HPx. cbn [y_w]. unfold upd_side at 1. now rewrite side_eqb_refl, Y1. }
  apply (inv_swap eps' z0 _ _ x s1 [] z1 p1); auto.
  - rewrite X1. apply set_sess_same.
  - rewrite X2. destruct Hw as [W1 W2 W3 W4]. constructor; auto.
  - rewrite X2. apply set_sess_same.
  - tauto.
  - unfold z0, z1, step. rewrite HP, HPx. cbn [y_w]. unfold upd_side. destruct x; reflexivity.
  - unfold z0, z1, step. rewrite HP, HPx. reflexivity.
Qed.

Lemma expected_from acts : forall y sp eps, Inv C st eps y sp acts -> admissible C st y sp acts ->
  forall pre a post, acts = pre ++ a :: post -> expected C st (run C st y pre) (spec_run sp pre) a.
Proof.
  induction acts as [|a0 acts IH]; intros y sp eps IV HA pre a post H; [destruct pre; discriminate|].
  destruct HA as [H1 H2]. destruct (any_step C OK st SO _ _ _ _ _ IV H1) as [HE (eps' & IV')].
  destruct pre as [|b pre]; cbn in H; injection H as -> ->; [exact HE|].
  cbn [run spec_run fold_left]. eapply IH; eauto.
Qed.
End P.

(* everything x has but its sessions and one-time prekeys is as it was *)
Definition same_account (w0 w : world) (rid peer_key : bytes) : Prop :=
  w_ident w = w_ident w0 /\ w_reg w = w_reg w0 /\ w_spk w = w_spk w0 /\ IsTrustedIdentity w rid peer_key = true.

Theorem C169_resumed : forall C, crypto_ok C -> forall st, setup_ok C st -> ~ no_history st ->
  forall pre j rnd post m b wm s p w c ps1 ps2,
  let y := run C st (start C st) pre in
  let sp := spec_run spec0 pre in
  let x := other (sm_from m) in
  let peer := st_peer st x in
  let rnd1 := fun _ : nat => rnd (S (length ps1)) in
  good_schedule C st (pre ++ Deliver j rnd1 :: post) ->
  admissible C st (start C st) spec0 pre ->
  deliverable sp j = true -> nth_error (sp_sent sp) j = Some m -> sp_epoch sp x <> 0%nat ->
  nth_error (y_net y) j = Some (sm_from m, CIPHERTEXT, b) -> LoadWhisperMessage b = Ok wm ->
  length (rnd (S (length ps1))) = 32%nat ->
  (* x's session s has been archived behind c and ps1, which refuse the message *)
  w_sess (y_w y x) (fst peer) (snd peer) = Some (s, p) ->
  same_account (st_w st x) w (fst peer) (idpub st (other x)) ->
  w_sess w (fst peer) (snd peer) = Some (c, ps1 ++ s :: ps2) ->
  (forall k t, nth_error (c :: ps1) k = Some t -> exists e t', ss_decrypt C t wm (rnd k) = (Err e, t')) ->
  let y' := mkSys (upd_side (y_w y) x w) (y_net y) in
  let y2 := step C (st_peer st) y' (Deliver j rnd) in
  let sp2 := spec_step sp (Deliver j rnd) in
  (exists l, perform C (st_peer st) y' (Deliver j rnd) = (x, Ok (sm_pt m), l)) /\
  (admissible C st y2 sp2 post ->
   forall pre' a post', post = pre' ++ a :: post' ->
   expected C st (run C st y2 pre') (spec_run sp2 pre') a).
Proof.
  intros C OK st SO NH pre j rnd post m b wm s p w c ps1 ps2 y sp x peer rnd1 HG HA Hd Hm Hn Hnet HL Hr Hs HW Hw HR y' y2 sp2.
  destruct (start_inv C OK st SO _ HG) as (eps & IV).
  destruct (run_inv C OK st SO _ _ _ _ _ IV HA) as (eps1 & IV1).
  assert (WO : world_ok st w x).
  { destruct HW as (W1 & W2 & W3 & W4). constructor; auto. }
  destruct (resume C OK st SO eps1 y sp post j m b x s p c ps1 ps2 w rnd wm IV1 NH Hr Hd Hm eq_refl Hnet HL Hs Hn WO Hw HR)
    as (l & eps2 & HP & IV2).
  split; [exists l; exact HP|]. intros HA2. exact (expected_from C OK st SO _ _ _ _ IV2 HA2).
Qed.
Print Assumptions C169_resumed.

(* Both have written first. B reads A's first message and answers in A's session; before the answer
   comes, A has read B's first message, which archives A's session. A reads the answer nevertheless
   and the conversation goes on in A's session. *)
Definition ex_wB1 : world := fst (estep toy ex_worldB (Done (CBuild na 1 (the_bundle toy ex_BA) (rb 79) (rb 90)))).
Definition ex_b1 : bytes * mtype :=
  Eval vm_compute in match fst (SessionEncryptMessage toy ex_wB1 na 1 [100]) with Ok v => v | _ => ([], CIPHERTEXT) end.
Definition ex_wB2 : world := apply_effs ex_wB1 (snd (SessionEncryptMessage toy ex_wB1 na 1 [100])).
Definition ex_cross : setup :=
  mkSetup (st_peer ex_setup) (fun x => match x with SA => ex_worldA7 | SB => ex_wB2 end)
    (ex_priv 33) 1 (Some (ex_priv 55)) 5 (st_sig ex_setup) (rb 77) (rb 88).
Definition ex_pre9 : list action := [Send SA [1]; Deliver 0 (fun _ => rb 201); Send SB [101]].
Definition ex_y9 : sys := run toy ex_cross (start toy ex_cross) ex_pre9.
Definition ex_w9 : world :=
  apply_effs (y_w ex_y9 SA) (snd (receive toy (y_w ex_y9 SA) nb 1 (snd ex_b1) (fst ex_b1) (fun _ => rb 202))).
Definition ex_rnd9 : nat -> bytes := fun i => rb (203 + Z.of_nat i).
Definition ex_post9 : list action :=
  [Send SA [2]; Send SB [102]; Deliver 2 (fun _ => rb 205); Deliver 3 (fun _ => rb 206); Send SB [103]; Deliver 4 (fun _ => rb 207)].
Definition rec_of (o : option (sstate * list sstate)) : sstate * list sstate :=
  match o with Some v => v | None => (empty_ss, []) end.
Definition ex_s9 : sstate := fst (rec_of (w_sess (y_w ex_y9 SA) nb 1)).
Definition ex_c9 : sstate := fst (rec_of (w_sess ex_w9 nb 1)).
Definition ex_m9 : smsg := mkSmsg SB 2 0 [101].
Definition ex_b9 : bytes := Eval vm_compute in snd (nth 1 (y_net ex_y9) (SA, CIPHERTEXT, [])).
Definition ex_wm9 : wmsg := Eval vm_compute in match LoadWhisperMessage ex_b9 with Ok m => m | _ => mkWmsg 0 [] 0 0 [] [] end.

Lemma single_nth {A} (P : nat -> A -> Prop) a : P 0%nat a -> forall k t, nth_error [a] k = Some t -> P k t.
Proof. intros H [|[|k]] t Hk; cbn in Hk; [|discriminate|discriminate]. injection Hk as <-. exact H. Qed.
Example C169_example :
  setup_ok toy ex_cross /\ ~ no_history ex_cross /\
  good_schedule toy ex_cross (ex_pre9 ++ Deliver 1 (fun _ => ex_rnd9 1) :: ex_post9) /\
  admissible toy ex_cross (start toy ex_cross) spec0 ex_pre9 /\
  deliverable (spec_run spec0 ex_pre9) 1 = true /\
  nth_error (sp_sent (spec_run spec0 ex_pre9)) 1 = Some ex_m9 /\
  sp_epoch (spec_run spec0 ex_pre9) SA <> 0%nat /\
  nth_error (y_net ex_y9) 1 = Some (SB, CIPHERTEXT, ex_b9) /\ LoadWhisperMessage ex_b9 = Ok ex_wm9 /\
  w_sess (y_w ex_y9 SA) nb 1 = Some (ex_s9, []) /\
  same_account ex_worldA7 ex_w9 nb (idpub ex_cross SB) /\
  w_sess ex_w9 nb 1 = Some (ex_c9, [ex_s9]) /\
  (forall k t, nth_error [ex_c9] k = Some t -> exists e t', ss_decrypt toy t ex_wm9 (ex_rnd9 k) = (Err e, t')) /\
  let y' := mkSys (upd_side (y_w ex_y9) SA ex_w9) (y_net ex_y9) in
  let y2 := step toy (st_peer ex_cross) y' (Deliver 1 ex_rnd9) in
  admissible toy ex_cross y2 (spec_step (spec_run spec0 ex_pre9) (Deliver 1 ex_rnd9)) ex_post9.
Proof.
  split; [constructor; try (intros []; vm_compute; repeat split; congruence); try (vm_compute; repeat split; congruence)|].
  split. { intros H. specialize (H SB). revert H. vm_compute. discriminate. }
  split. { split; [cbn; lia|]. apply nodupb_ok. vm_compute. reflexivity. }
  assert (W : forall l, wfbb l = true -> wfb l) by exact wfbb_ok.
  split.
  { unfold ex_pre9.
    repeat (match goal with
     | |- admissible _ _ _ _ [] => exact I
     | |- admissible _ _ _ _ (_ :: _) => split
     | |- assumed _ _ _ _ (Send _ _) => split; [vm_compute; congruence|split; [apply W; reflexivity|reflexivity]]
     | |- assumed _ _ _ _ (Deliver _ _) => split; [reflexivity|left; vm_compute; reflexivity]
     end). }
  split; [vm_compute; reflexivity|]. split; [vm_compute; reflexivity|]. split; [vm_compute; congruence|].
  split; [vm_compute; reflexivity|]. split; [vm_compute; reflexivity|]. split; [vm_compute; reflexivity|].
  split; [split; [vm_compute; reflexivity|split; [vm_compute; reflexivity|split; [vm_compute; reflexivity|vm_compute; reflexivity]]]|].
  split; [vm_compute; reflexivity|].
  split.
  { apply (single_nth (fun k t => exists e t', ss_decrypt toy t ex_wm9 (ex_rnd9 k) = (Err e, t'))).
    vm_compute. eexists. eexists. reflexivity. }
  cbv zeta. unfold ex_post9.
  repeat (match goal with
     | |- admissible _ _ _ _ [] => exact I
     | |- admissible _ _ _ _ (_ :: _) => split
     | |- assumed _ _ _ _ (Send _ _) => split; [vm_compute; congruence|split; [apply W; reflexivity|reflexivity]]
     | |- assumed _ _ _ _ (Deliver _ _) => split; [reflexivity|left; vm_compute; reflexivity]
     end).
Qed.
