(* C167: what is kept of the keys of messages that have been read or sent *)
From Coq Require Import ZArith List Lia Bool.
From Verif Require Import Bytes Res Wire Crypto Cbc Messages Session Builder SessionProofs SessionFacts
  MessagesProofs History HistoryProofs Conversation ConversationProofs InOrder Examples
  PropHistory PropConversation.
Import ListNotations.
Open Scope Z_scope.

(* ------------------------------------------------------------------------------------------ *)
(* Specification. A message says which chain (by its ratchet key) and which place of it its key is
   from. A chain has lost that key when it is not among the keys it keeps for messages to come and
   the chain key has moved beyond the place: chain keys only give the keys of their own and of later
   places. *)
Definition lost (rk : bytes) (i : Z) (c : chain) : Prop :=
  ch_rpub c = rk ->
  (forall k, In k (ch_mks c) -> mk_index k <> i) /\
  exists ck, ch_ck c = Some ck /\ i < ck_index ck.

(* no chain of any state of the stored record, neither for receiving nor for sending, has it *)
Definition erased (w : world) (rid : bytes) (dev : Z) (rk : bytes) (i : Z) : Prop :=
  forall cur prevs, w_sess w rid dev = Some (cur, prevs) ->
  forall s, In s (cur :: prevs) ->
    Forall (lost rk i) (s_recv s) /\ forall c, s_sender s = Some c -> lost rk i c.

Section P.
Variable C : crypto.
Hypothesis OK : crypto_ok C.
Variable st : setup.
Hypothesis SO : setup_ok C st.

Lemma prekey_position b p : LoadPreKeyWhisperMessage b = Ok p ->
  position PREKEY_BUNDLE b = Some (wm_rkey (pk_msg p), wm_counter (pk_msg p)).
Proof.
  unfold LoadPreKeyWhisperMessage, position. destruct b as [|b0 body]; [discriminate|]. cbn [tl].
  destruct (negb _); [discriminate|]. destruct (parse body) as [fs|]; [|discriminate].
  destruct (get_len 2 fs); [|discriminate]. destruct (get_len 3 fs); [|discriminate].
  destruct (get_len 4 fs); [|discriminate]. destruct (_ =? 0); [discriminate|].
  intros H. apply bind_ok in H. destruct H as (wm & Hw & H). rewrite Hw.
  apply bind_ok in H. destruct H as (bk & _ & H). apply bind_ok in H. destruct H as (ik & _ & H).
  injection H as <-. reflexivity.
Qed.

Lemma position_msg eps m f ty b : msg_ok C st eps m (f, ty, b) -> wfb (sm_pt m) -> zlen (sm_pt m) < 2 ^ 60 ->
  Z.of_nat (sm_idx m) < 2 ^ 32 ->
  position ty b = Some (pubn C eps (sm_epoch m), Z.of_nat (sm_idx m)).
Proof.
  intros (Hf & prev & Hp & Hm) Hw Hz Hi. cbv zeta in Hm. destruct ty.
  - destruct Hm as (_ & ->). unfold position. rewrite (gen_msg_load C OK) by auto. reflexivity.
  - destruct Hm as (_ & _ & ->).
    rewrite (prekey_position _ _ (pre_msg_load C OK st SO eps (sm_epoch m) (sm_idx m) prev (sm_pt m) (other f) Hw Hz Hi Hp)).
    reflexivity.
Qed.

Lemma sess_cases eps y sp acts x cur prevs : Inv C st eps y sp acts -> no_history st ->
  w_sess (y_w y x) (fst (st_peer st x)) (snd (st_peer st x)) = Some (cur, prevs) ->
  prevs = [] /\ sp_epoch sp x <> 0%nat /\
  st_ok C st eps (sp_epoch sp x) (sp_count sp x) (sp_next sp) (gotk sp) x cur.
Proof.
  intros IV NH Hs. pose proof (iv_sess _ _ _ _ _ _ IV x) as S. unfold sess_ok in S.
  unfold rid, dev in S. destruct (sp_epoch sp x) as [|n] eqn:En.
  - destruct S as [S _]. rewrite S, NH in Hs. discriminate.
  - destruct S as (s & p & S1 & S2 & S3). rewrite S1 in Hs. injection Hs as <- <-. auto.
Qed.

Lemma erased_msg eps y sp acts x m i : Inv C st eps y sp acts -> no_history st -> Z.of_nat i < 2 ^ 32 ->
  (sm_epoch m < length eps)%nat -> (1 <= sm_epoch m)%nat -> sm_idx m = i ->
  (owner (sm_epoch m) = other x -> (i < sp_next sp (sm_epoch m))%nat /\ gotk sp (sm_epoch m) i) ->
  (sm_epoch m = sp_epoch sp x -> (i < sp_count sp x)%nat) ->
  erased (y_w y x) (fst (st_peer st x)) (snd (st_peer st x)) (pubn C eps (sm_epoch m)) (Z.of_nat i).
Proof.
  intros IV NH Hi Hk H1 Ei Hr Hs cur prevs Hsess s Hin.
  pose proof (iv_eps _ _ _ _ _ _ IV) as W. pose proof (iv_spec _ _ _ _ _ _ IV) as K.
  destruct (sess_cases _ _ _ _ _ _ _ IV NH Hsess) as (-> & Hn & ST). destruct Hin as [<-|[]].
  pose proof (epoch_lt _ _ _ _ _ _ x IV) as Hlt.
  pose proof (sk_next _ K) as KN. pose proof (sk_count _ K) as KC.
  pose proof (iv_size _ _ _ _ _ _ IV) as KS.
  split.
  - apply Forall_forall. intros c Hc.
    destruct (In_nth_error _ _ Hc) as (d & Hd).
    assert (exists k, In k (win (sp_epoch sp x)) /\ chain_ok C eps (sp_next sp) (gotk sp) k c) as (k & Hw & CO).
    { pose proof (so_recv _ _ _ _ _ _ _ _ _ ST) as F. clear - F Hc. induction F; [destruct Hc|].
      destruct Hc as [<-|Hc]; [exists x0; split; [now left|auto]|].
      destruct (IHF Hc) as (k & A & B). exists k. split; [now right|auto]. }
    intros Hrk. destruct CO as [CR [CO _]]. rewrite CR in Hrk.
    assert (k < sp_epoch sp x)%nat by (apply in_win in Hw; destruct Hw as (? & ? & ?); lia).
    assert (k = sm_epoch m) as -> by (apply (pubn_inj C st eps); auto; lia).
    destruct (CO ltac:(lia)) as (CK & sk & Hmk & _ & Hsk).
    pose proof (E_ok C st eps (sm_epoch m) W Hk) as (_ & _ & _ & HI0).
    pose proof (win_owner _ _ Hw) as OW. rewrite (sk_own _ K) in OW.
    destruct (Hr OW) as [R1 R2]. specialize (KN (sm_epoch m)). specialize (KC x). split.
    + intros k Hik. rewrite Hmk in Hik. unfold mks_of in Hik. apply in_map_iff in Hik.
      destruct Hik as (i' & <- & Hi'). apply Hsk in Hi'. destruct Hi' as [L1 L2].
      rewrite mk_index_ckn by (auto; lia). intros EQ. apply Nat2Z.inj in EQ. subst i'. auto.
    + eexists. split; [exact CK|]. rewrite ckn_index by (auto; lia). lia.
  - intros c Hc. rewrite (so_sender _ _ _ _ _ _ _ _ _ ST) in Hc. injection Hc as <-.
    intros Hrk. cbn [ch_rpub] in Hrk. cbn [ch_mks ch_ck].
    assert (sm_epoch m = sp_epoch sp x) as EE by (symmetry; apply (pubn_inj C st eps); auto).
    split; [intros ? []|]. eexists. split; [reflexivity|].
    pose proof (E_ok C st eps _ W Hlt) as (_ & _ & _ & HI0). specialize (KC x).
    rewrite ckn_index by (auto; lia). specialize (Hs EE). lia.
Qed.

Lemma net_msg eps y sp acts j f ty b : Inv C st eps y sp acts -> nth_error (y_net y) j = Some (f, ty, b) ->
  exists m, nth_error (sp_sent sp) j = Some m /\ f = sm_from m /\ owner (sm_epoch m) = f /\
    (sm_epoch m < length eps)%nat /\ (1 <= sm_epoch m)%nat /\ Z.of_nat (sm_idx m) < 2 ^ 32 /\
    (sm_epoch m = sp_epoch sp f -> (sm_idx m < sp_count sp f)%nat) /\
    position ty b = Some (pubn C eps (sm_epoch m), Z.of_nat (sm_idx m)).
Proof.
  intros IV Hj. pose proof (iv_net _ _ _ _ _ _ IV) as F. pose proof (iv_spec _ _ _ _ _ _ IV) as K.
  pose proof (iv_size _ _ _ _ _ _ IV) as KS.
  assert (L := Forall2_len _ _ _ F).
  assert (Hl : (j < length (sp_sent sp))%nat) by (rewrite L; apply nth_error_Some; congruence).
  destruct (nth_error (sp_sent sp) j) as [m|] eqn:Em; [|apply nth_error_None in Em; lia].
  destruct (Forall2_nth _ _ _ _ _ F Em) as (e & He & MO). rewrite Hj in He. injection He as <-.
  destruct (sk_sent _ K _ _ Em) as (A1 & A2 & A3 & A4 & A5 & A6).
  pose proof (epoch_lt _ _ _ _ _ _ (sm_from m) IV).
  assert (Hi : Z.of_nat (sm_idx m) < 2 ^ 32) by lia.
  pose proof (position_msg _ _ _ _ _ MO A5 A6 Hi) as P.
  destruct MO as (-> & _). exists m. do 3 (split; [auto|]). split; [lia|]. split; [lia|]. split; [lia|]. split; [exact A3|exact P].
Qed.

(* the invariant along a run *)
Lemma run_inv acts : forall post y sp eps, Inv C st eps y sp (acts ++ post) -> admissible C st y sp acts ->
  exists eps', Inv C st eps' (run C st y acts) (spec_run sp acts) post.
Proof.
  induction acts as [|a acts IH]; intros post y sp eps IV HA; [exists eps; exact IV|].
  destruct HA as [H1 H2]. cbn [app] in IV.
  destruct (any_step C OK st SO _ _ _ _ _ IV H1) as [_ (eps' & IV')].
  cbn [run spec_run fold_left]. exact (IH _ _ _ _ IV' H2).
Qed.

Lemma admissible_app pre post y sp : admissible C st y sp (pre ++ post) ->
  admissible C st y sp pre /\ admissible C st (run C st y pre) (spec_run sp pre) post.
Proof.
  revert y sp. induction pre as [|a pre IH]; intros y sp H; [split; [exact Logic.I|exact H]|].
  destruct H as [H1 H2]. destruct (IH _ _ H2) as [A B]. split; [split; auto|exact B].
Qed.

Lemma net_step y a j e : nth_error (y_net y) j = Some e -> nth_error (y_net (step C (st_peer st) y a)) j = Some e.
Proof.
  intros H. unfold step. destruct (perform C (st_peer st) y a) as [[x r] l]. cbn [y_net].
  destruct a; auto. destruct r; auto. rewrite nth_error_app1; auto. apply nth_error_Some. congruence.
Qed.
Lemma net_run acts : forall y j e, nth_error (y_net y) j = Some e -> nth_error (y_net (run C st y acts)) j = Some e.
Proof. induction acts as [|a acts IH]; intros y j e H; [exact H|]. apply IH. now apply net_step. Qed.
Lemma got_step sp a j : In j (sp_got sp) -> In j (sp_got (spec_step sp a)).
Proof.
  intros H. destruct a as [x pt|i rnd|x ty b rnd]; cbn [spec_step]; auto. destruct (deliverable sp i); auto.
  destruct (nth_error (sp_sent sp) i); auto. cbv zeta. destruct (_ <? _)%nat; cbn [sp_got]; now right.
Qed.
Lemma got_run acts : forall sp j, In j (sp_got sp) -> In j (sp_got (spec_run sp acts)).
Proof. induction acts as [|a acts IH]; intros sp j H; [exact H|]. apply IH. now apply got_step. Qed.

Section Run.
Variables (pre : list action) (a : action) (post : list action).
Hypothesis NH : no_history st.
Hypothesis HG : good_schedule C st (pre ++ a :: post).
Hypothesis HA : admissible C st (start C st) spec0 (pre ++ a :: post).

Lemma at_step : exists eps, Inv C st eps (run C st (start C st) pre) (spec_run spec0 pre) (a :: post).
Proof.
  destruct (start_inv C OK st SO _ HG) as (eps & IV). apply admissible_app in HA. destruct HA as [H1 _].
  exact (run_inv _ _ _ _ _ IV H1).
Qed.
Lemma at_end : exists eps, Inv C st eps (run C st (start C st) (pre ++ a :: post)) (spec_run spec0 (pre ++ a :: post)) [].
Proof.
  destruct (start_inv C OK st SO _ HG) as (eps & IV). rewrite <- (app_nil_r (pre ++ a :: post)) in IV.
  exact (run_inv _ _ _ _ _ IV HA).
Qed.

Lemma read_erased j rnd x pt l f ty b rk i :
  a = Deliver j rnd ->
  let y := run C st (start C st) pre in
  perform C (st_peer st) y (Deliver j rnd) = (x, Ok pt, l) ->
  nth_error (y_net y) j = Some (f, ty, b) -> position ty b = Some (rk, i) ->
  erased (y_w (run C st (start C st) (pre ++ a :: post)) x) (fst (st_peer st x)) (snd (st_peer st x)) rk i.
Proof.
  intros Ha y HP Hj Hpos. destruct at_step as (eps & IV). destruct at_end as (eps' & IV').
  pose proof HA as HA'. apply admissible_app in HA'. destruct HA' as [_ [HA1 _]].
  assert (x = other f) as ->.
  { unfold perform in HP. rewrite Hj in HP. destruct (receive _ _ _ _ _ _ _). congruence. }
  (* it was deliverable *)
  assert (D : deliverable (spec_run spec0 pre) j = true).
  { rewrite Ha in HA1, IV. cbn [assumed] in HA1. destruct HA1 as [_ [D|[[_ Hr]|Hr]]]; auto.
    - destruct (repeat_step C OK st SO _ _ _ _ _ rnd _ IV NH Hr) as (m & _ & HP'). fold y in HP'. rewrite HP in HP'. discriminate.
    - unfold refused in Hr. fold y in Hr. rewrite HP in Hr. destruct Hr as [[e Hr] _]. discriminate. }
  assert (G : In j (sp_got (spec_run spec0 (pre ++ a :: post)))).
  { unfold spec_run. rewrite fold_left_app. cbn [fold_left]. apply got_run. rewrite Ha. cbn [spec_step].
    fold (spec_run spec0 pre). rewrite D.
    destruct (nth_error (sp_sent (spec_run spec0 pre)) j) eqn:En; [|unfold deliverable in D; rewrite En in D; discriminate].
    cbv zeta. destruct (_ <? _)%nat; now left. }
  assert (Hj' : nth_error (y_net (run C st (start C st) (pre ++ a :: post))) j = Some (f, ty, b)).
  { unfold run. rewrite fold_left_app. apply (net_run (a :: post)). exact Hj. }
  destruct (net_msg _ _ _ _ _ _ _ _ IV' Hj') as (m & M1 & M2 & M3 & M4 & M5 & M6 & M7 & M8).
  rewrite Hpos in M8. injection M8 as -> ->.
  pose proof (iv_spec _ _ _ _ _ _ IV') as K.
  eapply erased_msg; eauto.
  - intros _. split.
    + destruct (sk_got _ K _ G) as (m' & E1 & E2). rewrite M1 in E1. injection E1 as <-. exact E2.
    + exists j, m. auto.
  - intros EQ. exfalso. rewrite EQ, (sk_own _ K) in M3. now destruct f.
Qed.

Lemma sent_erased x pt b l rk i :
  a = Send x pt ->
  let y := run C st (start C st) pre in
  perform C (st_peer st) y (Send x pt) = (x, Ok b, l) ->
  position (sent_type C (st_peer st) y (Send x pt)) b = Some (rk, i) ->
  erased (y_w (run C st (start C st) (pre ++ a :: post)) x) (fst (st_peer st x)) (snd (st_peer st x)) rk i.
Proof.
  intros Ha y HP Hpos. destruct at_step as (eps & IV). destruct at_end as (eps' & IV').
  set (j := length (y_net y)).
  assert (Hj' : nth_error (y_net (run C st (start C st) (pre ++ a :: post))) j
                = Some (x, sent_type C (st_peer st) y (Send x pt), b)).
  { unfold run. rewrite fold_left_app. cbn [fold_left]. apply net_run. rewrite Ha. fold y. fold (run C st (start C st) pre).
    fold y. unfold step. rewrite HP. cbn [y_net]. unfold j. rewrite nth_error_app2, Nat.sub_diag; auto. }
  destruct (net_msg _ _ _ _ _ _ _ _ IV' Hj') as (m & M1 & M2 & M3 & M4 & M5 & M6 & M7 & M8).
  rewrite Hpos in M8. injection M8 as -> ->.
  eapply erased_msg; eauto.
  intros EQ. exfalso. rewrite EQ in M3. now destruct x.
Qed.
End Run.
End P.

(* ------------------------------------------------------------------------------------------ *)
(* C167. In every conversation between two clients that had no older session, with any losses,
   repetitions, reorderings and injections, from the moment a message has been read its key is gone
   from every chain the reader has stored under the message's ratchet key, for good; the same holds
   of the sender from the moment the message has been handed out. That other chains do not have it
   either is not said here and is false of A's first chain (C167_first_chain_kept below); which
   texts the stored values give away is settled exactly in PropSecrecy.v. *)
Theorem C167_erased_partial : forall C, crypto_ok C -> forall st, setup_ok C st -> no_history st ->
  forall pre a post,
  good_schedule C st (pre ++ a :: post) -> admissible C st (start C st) spec0 (pre ++ a :: post) ->
  let y := run C st (start C st) pre in
  let w := y_w (run C st (start C st) (pre ++ a :: post)) in
  (forall j rnd x pt l f ty b rk i, a = Deliver j rnd ->
     perform C (st_peer st) y a = (x, Ok pt, l) ->
     nth_error (y_net y) j = Some (f, ty, b) -> position ty b = Some (rk, i) ->
     erased (w x) (fst (st_peer st x)) (snd (st_peer st x)) rk i) /\
  (forall x pt b l rk i, a = Send x pt ->
     perform C (st_peer st) y a = (x, Ok b, l) ->
     position (sent_type C (st_peer st) y a) b = Some (rk, i) ->
     erased (w x) (fst (st_peer st x)) (snd (st_peer st x)) rk i).
Proof.
  intros C OK st SO NH pre a post HG HA y w. split.
  - intros j rnd x pt l f ty b rk i Ha HP Hj Hp. subst a.
    exact (read_erased C OK st SO pre _ post NH HG HA j rnd x pt l f ty b rk i eq_refl HP Hj Hp).
  - intros x pt b l rk i Ha HP Hp. subst a.
    exact (sent_erased C OK st SO pre _ post NH HG HA x pt b l rk i eq_refl HP Hp).
Qed.
Print Assumptions C167_erased_partial.

(* The schedule of C02, whose first delivery is of A's third message: it is read, and its place is 2
   of A's first chain. After the whole schedule B's record has that chain, with its key beyond. *)
Definition ex_pre : list action := firstn 3 ex_acts.
Definition ex_post : list action := skipn 4 ex_acts.
Definition ex_third : side * mtype * bytes :=
  Eval vm_compute in nth 2 (y_net (run toy ex_setup (start toy ex_setup) ex_pre)) (SA, CIPHERTEXT, []).
Definition ex_rk : bytes :=
  Eval vm_compute in match position (snd (fst ex_third)) (snd ex_third) with Some (rk, _) => rk | None => [] end.
Example C167_example :
  no_history ex_setup /\
  ex_acts = ex_pre ++ Deliver 2 (fun _ => rb 101) :: ex_post /\
  snd (fst (perform toy (st_peer ex_setup) (run toy ex_setup (start toy ex_setup) ex_pre) (Deliver 2 (fun _ => rb 101)))) = Ok [3] /\
  nth_error (y_net (run toy ex_setup (start toy ex_setup) ex_pre)) 2 = Some ex_third /\
  position (snd (fst ex_third)) (snd ex_third) = Some (ex_rk, 2) /\
  (exists cur, w_sess (y_w (run toy ex_setup (start toy ex_setup) ex_acts) SB) na 1 = Some (cur, []) /\
     exists c, In c (s_recv cur) /\ ch_rpub c = ex_rk /\ option_map ck_index (ch_ck c) = Some 3).
Proof.
  split; [exact ex_no_history|]. split; [reflexivity|].
  split; [vm_compute; reflexivity|]. split; [vm_compute; reflexivity|]. split; [vm_compute; reflexivity|].
  vm_compute. eexists. split; [reflexivity|]. eexists. split; [left; reflexivity|]. split; reflexivity.
Qed.

(* for proofs by computation *)
Definition lostb (rk : bytes) (i : Z) (c : chain) : bool :=
  negb (beq (ch_rpub c) rk) ||
  (forallb (fun k => negb (mk_index k =? i)) (ch_mks c) &&
   match ch_ck c with Some ck => i <? ck_index ck | None => false end).
Lemma lostb_ok rk i c : lost rk i c -> lostb rk i c = true.
Proof.
  unfold lost, lostb. intros H. destruct (beq (ch_rpub c) rk) eqn:EB; [|reflexivity]. cbn [negb orb].
  apply beq_eq in EB. destruct (H EB) as (H1 & ck & -> & H2). apply andb_true_iff. split; [|now apply Z.ltb_lt].
  apply forallb_forall. intros k Hk. specialize (H1 _ Hk). destruct (Z.eqb_spec (mk_index k) i); [contradiction|reflexivity].
Qed.
Definition erasedb (w : world) (rid : bytes) (dev : Z) (rk : bytes) (i : Z) : bool :=
  match w_sess w rid dev with
  | None => true
  | Some (cur, prevs) => forallb (fun s => forallb (lostb rk i) (s_recv s)) (cur :: prevs)
  end.
Lemma erasedb_ok w rid dev rk i : erased w rid dev rk i -> erasedb w rid dev rk i = true.
Proof.
  unfold erased, erasedb. intros H. destruct (w_sess w rid dev) as [[cur prevs]|]; [|reflexivity].
  apply forallb_forall. intros s Hs. destruct (H _ _ eq_refl _ Hs) as [F _]. apply forallb_forall.
  intros c Hc. rewrite Forall_forall in F. apply lostb_ok. auto.
Qed.

(* Full statement: the same whatever older sessions the two had. It is false: B has read message 2 of
   A's first session after the second was set up, and its key is still in the record. *)
Definition ex_rk2 : bytes :=
  Eval vm_compute in match position PREKEY_BUNDLE (se_bytes (nth 2 outA (mkSent [] 0 CIPHERTEXT []))) with
    Some (rk, _) => rk | None => [] end.
Theorem C167_kept_refuted : exists C w h rid dev ty b rnd pt rk i,
  crypto_ok C /\ (forall r d, w_sess w r d = None) /\
  let w1 := fst (history C w h) in
  fst (receive C w1 rid dev ty b rnd) = Ok pt /\
  position ty b = Some (rk, i) /\
  ~ erased (apply_effs w1 (snd (receive C w1 rid dev ty b rnd))) rid dev rk i.
Proof.
  exists toy, ex_worldB, (map Done [from_A 0 100; from_A 3 110; from_A 1 120]), na, 1, PREKEY_BUNDLE,
    (se_bytes (nth 2 outA (mkSent [] 0 CIPHERTEXT []))), (fun _ => rb 130), [3], ex_rk2, 2.
  split; [exact toy_ok|]. split; [reflexivity|]. split; [vm_compute; reflexivity|].
  split; [vm_compute; reflexivity|].
  intros H. apply erasedb_ok in H. revert H. vm_compute. discriminate.
Qed.
Print Assumptions C167_kept_refuted.

(* ------------------------------------------------------------------------------------------ *)
(* The message keys that a chain key gives for the places from its own on, used on a message *)
Definition open_with (C : crypto) (ck : ckey) (b : bytes) : res bytes :=
  let* pm := LoadPreKeyWhisperMessage b in
  let m := pk_msg pm in
  let mk := getMessageKeys C (Nat.iter (Z.to_nat (wm_counter m)) (getNextChainKey C) ck) in
  Decrypt C (mk_cipher mk) (mk_iv mk ++ wm_ct m).

(* The sender's half of the full statement is false in every conversation: initializeSenderSession
   puts the first key of A's own sending chain into a receiver chain (ratchet.go 200) where it is
   never advanced. As long as A is at key 9 or before, what A has stored opens every message A has
   sent with its first key, however long ago. *)
Theorem C167_first_chain_kept : forall C, crypto_ok C -> forall st, setup_ok C st -> no_history st ->
  forall acts, good_schedule C st acts -> admissible C st (start C st) spec0 acts ->
  (sp_epoch (spec_run spec0 acts) SA <= 9)%nat ->
  let y := run C st (start C st) acts in
  exists s c ck, w_sess (y_w y SA) (fst (st_peer st SA)) (snd (st_peer st SA)) = Some (s, []) /\
    In c (s_recv s) /\ ch_ck c = Some ck /\
    forall j m, nth_error (sp_sent (spec_run spec0 acts)) j = Some m -> sm_epoch m = 1%nat ->
    exists b, nth_error (y_net y) j = Some (SA, PREKEY_BUNDLE, b) /\ open_with C ck b = Ok (sm_pt m).
Proof.
  intros C OK st SO NH acts HG HA H9 y.
  destruct (start_inv C OK st SO _ HG) as (eps0 & IV0). rewrite <- (app_nil_r acts) in IV0.
  destruct (run_inv C OK st SO _ _ _ _ _ IV0 HA) as (eps & IV). fold y in IV.
  pose proof (iv_spec _ _ _ _ _ _ IV) as K. set (sp := spec_run spec0 acts) in *.
  assert (HO : owner (sp_epoch sp SA) = SA) by apply (sk_own _ K).
  pose proof (iv_sess _ _ _ _ _ _ IV SA) as HS. unfold sess_ok in HS.
  assert (HW : In 0%nat (win (sp_epoch sp SA))).
  { apply in_win. destruct (owner_diff (sp_epoch sp SA) 0) as (d & Hd).
    - now rewrite HO.
    - destruct (sp_epoch sp SA); [discriminate HO|lia].
    - exists d. lia. }
  destruct (sp_epoch sp SA) as [|n] eqn:En; [discriminate HO|].
  destruct HS as (s & p & HS & Hp & Hst). rewrite (Hp NH) in HS.
  pose proof (so_recv _ _ _ _ _ _ _ _ _ Hst) as F.
  assert (HC : exists c, In c (s_recv s) /\ chain_ok C eps (sp_next sp) (gotk sp) 0 c).
  { clear - F HW. induction F as [|k c ks cs HR F IH]; [destruct HW|]. destruct HW as [->|HW].
    - exists c. split; [now left|exact HR].
    - destruct (IH HW) as (c' & H1 & H2). exists c'. split; [now right|exact H2]. }
  destruct HC as (c & Hc & _ & _ & _ & HX). destruct (HX eq_refl) as [HK _].
  exists s, c, (e_ck (E eps 1)). split; [exact HS|]. split; [exact Hc|]. split; [exact HK|].
  intros j m Hj H1. destruct (Forall2_nth _ _ _ _ _ (iv_net _ _ _ _ _ _ IV) Hj) as ([[f ty] b] & Hn & Hf & prev & Hpv & Hm).
  destruct (sk_sent _ K _ _ Hj) as (A1 & A2 & A3 & A4 & A5 & A6).
  rewrite H1 in A1. cbn in A1. cbv zeta in Hm. rewrite <- A1 in Hf. subst f.
  pose proof (iv_size _ _ _ _ _ _ IV) as KS.
  destruct ty; [destruct Hm as [Hx _]; exfalso; now apply Hx|]. destruct Hm as (_ & _ & ->).
  eexists. split; [exact Hn|]. unfold open_with. cbn [other].
  rewrite (pre_msg_load C OK st SO) by (auto; lia). cbn [bind pre_loaded pk_msg].
  unfold gen_msg, chain_msg. cbv zeta. cbn [wm_counter wm_ct newWhisperMessage]. rewrite Nat2Z.id, H1.
  fold (ckn C (e_ck (E eps 1)) (sm_idx m)). apply (Decrypt_cipher_of C OK). exact A5.
Qed.
Print Assumptions C167_first_chain_kept.

(* In the schedule of C02 A's three first texts are opened by what A has stored at the end, long after
   B has read and answered them. *)
Definition ex_kept : ckey :=
  Eval vm_compute in match w_sess (y_w (run toy ex_setup (start toy ex_setup) ex_acts) SA) nb 1 with
    | Some (s, _) => match s_recv s with c :: _ => match ch_ck c with Some k => k | None => mkCk 0 [] end | [] => mkCk 0 [] end
    | None => mkCk 0 [] end.
Example C167_first_chain_example :
  sp_epoch (spec_run spec0 ex_acts) SA = 3%nat /\
  map (fun j => open_with toy ex_kept (snd (nth j (y_net (run toy ex_setup (start toy ex_setup) ex_acts)) (SA, CIPHERTEXT, []))))
    [0; 1; 2]%nat = [Ok [1]; Ok [2; 2]; Ok [3]].
Proof. split; vm_compute; reflexivity. Qed.
