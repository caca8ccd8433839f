(* C160 a conversation of two clients: what one user gives to SendMessage is presented to the other, for every schedule. *)
From Coq Require Import ZArith List Lia Bool.
From Verif Require Import Bytes Res Wire WireProofs Crypto Cbc CbcProofs Messages MessagesProofs Session Builder SessionProofs
  SessionFacts Conversation ConversationProofs RecordCodec RecordCodecProofs Content ContentProofs
  Encodings PropEncodings Sending SendingProofs Examples PropSending Receiving PropReceiving Whole.
Import ListNotations.
Open Scope Z_scope.

Lemma side_dec (x y : side) : x = y \/ other x = y.
Proof. destruct x, y; cbn; auto. Qed.
Lemma upd_same {A} (f : side -> A) x v : upd_side f x v x = v.
Proof. unfold upd_side. destruct x; reflexivity. Qed.
Lemma upd_other {A} (f : side -> A) x v : upd_side f x v (other x) = f (other x).
Proof. unfold upd_side. destruct x; reflexivity. Qed.

(* ---- frames ---- *)
Lemma request_frame_read verb path body id : u64 id -> zlen (request_frame verb path body id) < 2 ^ 62 ->
  unmarshal_ws (request_frame verb path body id) = Some (Some (mkWsReq (Some path) (Some body) (Some id))).
Proof.
  intros U Z0. unfold unmarshal_ws, request_frame in *.
  set (i := [(1, [WLen verb]); (2, [WLen path]); (3, [WLen body]); (4, [WVarint id])]) in *.
  set (s := [(1, [WVarint 1]); (2, f_msg i)]) in *.
  assert (S : small s) by (unfold small; lia).
  assert (Si : small i) by (apply (small_sub s 2 (f_msg i) i S); [right; left; reflexivity|left; reflexivity]).
  assert (D : distinct (map fst s) = true) by reflexivity. assert (Di : distinct (map fst i) = true) by reflexivity.
  assert (Ks : slots_ok s) by (unfold slots_ok, s; constructor; [split; [cbn; unfold max_field; lia|constructor; [cbn; lia|constructor]]|];
    constructor; [split; [cbn; unfold max_field; lia|apply val_f_msg]|constructor]).
  assert (Ki : slots_ok i).
  { unfold slots_ok, i. unfold u64 in U.
    do 3 (constructor; [split; [cbn; unfold max_field; lia|constructor; [exact Logic.I|constructor]]|]).
    constructor; [split; [cbn; unfold max_field; lia|constructor; [cbn; lia|constructor]]|constructor]. }
  rewrite parse_marshal; [|exact Ks|exact S].
  rewrite (g_msg_some _ D 2 wsreq_dec i (mkWsReq (Some path) (Some body) (Some id))).
  - unfold present. rewrite (g_msg_none _ D 3) by reflexivity. reflexivity.
  - reflexivity.
  - apply parse_marshal; [exact Ki|exact Si].
  - unfold wsreq_dec. rewrite (q_len_flat _ 2 (Some path)), (q_len_flat _ 3 (Some body)), (q_u64_flat _ 4 (Some id)) by (reflexivity || exact Di). reflexivity.
Qed.
Lemma sub_body verb path body id : zlen body <= zlen (request_frame verb path body id).
Proof.
  unfold request_frame. set (i := [(1, [WLen verb]); (2, [WLen path]); (3, [WLen body]); (4, [WVarint id])]).
  assert (A : zlen body <= zlen (marshal i)) by (apply (sub_size i 3 [WLen body] body); [do 2 right; left; reflexivity|left; reflexivity]).
  assert (B : zlen (marshal i) <= zlen (marshal [(1, [WVarint 1]); (2, f_msg i)]))
    by (apply (sub_size _ 2 (f_msg i) (marshal i)); [right; left; reflexivity|left; reflexivity]).
  lia.
Qed.
Lemma envelope_slots_ok e : opt u64 (e_type e) -> opt u64 (e_ts e) -> opt u64 (e_device e) -> opt u64 (e_sts e) -> slots_ok (envelope_slots e).
Proof. intros. unfold envelope_slots. slots_tac; auto using val_o_len, val_o_varint. Qed.
Lemma envelope_read t src ts b sts : u64 ts -> u64 sts ->
  let e := mkEnv (Some (env_type t)) (Some src) (Some 1) None (Some ts) (Some b) (Some sts) in
  zlen (env_bytes e) < 2 ^ 63 -> createEnvelope (env_bytes e) = Some e.
Proof.
  intros U1 U2 e S. unfold createEnvelope, env_bytes. assert (D : distinct (map fst (envelope_slots e)) = true) by reflexivity.
  rewrite parse_marshal; [| |exact S].
  - cbn [option_map]. f_equal. unfold envelope_dec.
    rewrite (q_len_flat _ 11 (Some src)), (q_u32_flat _ 7 (Some 1)), (q_len_flat _ 13 None), (q_u64_flat _ 5 (Some ts)),
      (q_len_flat _ 8 (Some b)), (q_u64_flat _ 10 (Some sts)) by (reflexivity || exact D || (cbn; unfold u32; lia)).
    unfold e. destruct t; reflexivity.
  - apply envelope_slots_ok; unfold e; cbn [e_type e_ts e_device e_sts opt]; [destruct t; cbn; unfold u64; lia|exact U1|unfold u64; lia|exact U2].
Qed.

Section P.
Variable C : crypto.
Hypothesis OK : crypto_ok C.
Variable st : setup.
Hypothesis SO : setup_ok C st.
Variable ac : side -> account.
(* everybody knows the other by their UUID, as device 1 *)
Hypothesis Names : forall x, st_peer st x = (ac_name (ac (other x)), 1).
Hypothesis Uuid : forall x, recID (ac_name (ac x)) = Ok (ac_name (ac x)).
Hypothesis NamesWf : forall x, wfb (ac_name (ac x)).
Hypothesis Keys : forall x, opt wfb (ac_pkey (ac x)).
Hypothesis Sig : wfb (st_sig st) /\ length (st_sig st) = 64%nat.
Hypothesis First : w_sess (st_w st SA) (fst (st_peer st SA)) 1 = None.
Hypothesis Rand : ac_rand (ac SA) 0%nat = st_rbase st /\ ac_rand (ac SA) 1%nat = st_rratchet st.

Notation relay x := (relay C st ac x).
Notation padded := (padded ac).
Notation the_out := (the_out ac).
Notation abstract := (abstract ac).
Notation ustep := (ustep C st ac).

Lemma the_out_ok x text timer now : wfb text -> u32 timer -> u64 now -> out_ok (ac_pkey (ac x)) now (the_out x text timer).
Proof.
  intros W T N. constructor; cbn [the_out o_text o_att o_flags o_expire o_time o_gv2]; auto.
  - intros p H. discriminate H.
  - unfold u32. lia.
  - intros g H. discriminate H.
Qed.

(* ---- messages of a conversation are bytes ---- *)
Lemma msg_wf eps m e : msg_ok C st eps m e -> wfb (sm_pt m) -> wfb (snd e).
Proof.
  destruct e as [[f ty] b]. intros (_ & prev & P & H) W. cbn [snd].
  assert (K : forall x, wfb (wm_ser (gen_msg C st eps (sm_epoch m) (sm_idx m) prev (sm_pt m) x))).
  { intros x. unfold gen_msg, chain_msg. cbv zeta. apply (whisper_wf C OK); [apply (basepub_wf C OK)|lia|lia|].
    apply (Encrypt_wf C OK _ _ _ _ (cipher_of_ok C OK _ (sm_pt m))); [|exact W]. apply (getMessageKeys_ok C OK). }
  cbv zeta in H. destruct ty; destruct H as [_ H].
  - rewrite H. apply K.
  - destruct H as [_ ->]. unfold pre_msg, newPreKeyWhisperMessage. cbn [pk_ser]. constructor; [vm_compute; split; congruence|].
    apply encode_wf. unfold prekey_fields.
    assert (KS : forall k, wfb k -> wfb (key_ser k)) by (intros k Hk; constructor; [unfold isbyte; lia|exact Hk]).
    pose proof (pkid_range C st SO). pose proof (so_reg _ _ SO SA). pose proof (so_spkid _ _ SO).
    constructor; [split; [cbn; lia|cbn [snd wf_val]; lia]|].
    constructor; [split; [cbn; lia|apply KS, (basepub_wf C OK)]|].
    constructor; [split; [cbn; lia|apply KS]|]. { destruct (so_ident _ _ SO SA) as [-> _]. apply (basepub_wf C OK). }
    constructor; [split; [cbn; lia|apply K]|].
    constructor; [split; [cbn; lia|cbn [snd wf_val]; lia]|].
    constructor; [split; [cbn; lia|cbn [snd wf_val]; lia]|constructor].
Qed.

(* ---- sending ---- *)
Lemma send_once x text timer now cs st1 b ty l : let name := ac_name (ac (other x)) in
  cs_devs (relay x) cs name = None \/ cs_devs (relay x) cs name = Some [1] ->
  ensure_session C (relay x) (ac_rand (ac x)) (default_devs (relay x) cs name) name name 1 = (Ok tt, st1) ->
  SessionEncryptMessage C (cs_w (relay x) st1) name 1 (padded x text timer now) = (Ok (b, ty), l) ->
  exists cs' reg, SendMessage C (relay x) (ac_rand (ac x)) 1 (ac_name (ac x)) (ac_pkey (ac x)) now name text timer cs = (Some (Ok now), cs') /\
    cs_w (relay x) cs' = apply_effs (cs_w (relay x) st1) l /\
    cs_devs (relay x) cs' = cs_devs (relay x) st1 /\
    cs_rnd (relay x) cs' = cs_rnd (relay x) st1 /\
    cs_srv (relay x) cs' = cs_srv (relay x) st1 ++ [(x, mkReq name now [mkJ ty 1 reg (enc64 b)])].
Proof.
  intros name Dv En Ec. unfold SendMessage, sendMessage. cbn [o_dest o_time].
  change (mkOut name text None None None 0 timer None) with (the_out x text timer). fold (padded x text timer now).
  cbn [buildAndSend].
  assert (DD : devs_of (relay x) (default_devs (relay x) cs name) name = [1]).
  { unfold default_devs. destruct Dv as [D|D]; rewrite D; unfold devs_of; [|rewrite D; reflexivity].
    unfold set_devs. cbn [cs_devs]. rewrite beq_refl. reflexivity. }
  rewrite DD. unfold buildMessage. assert (RU : recID name = Ok name) by apply Uuid. rewrite RU. cbn [build_devices]. rewrite En.
  unfold device_message. rewrite Ec. cbn [sv_put Whole.relay set_w cs_srv cs_w cs_devs cs_rnd cs_log].
  change (200 =? 409) with false. change (200 =? 410) with false. change (isError 200) with false. cbv iota.
  eexists _, _. split; [reflexivity|]. split; [reflexivity|]. split; [reflexivity|]. split; reflexivity.
Qed.

(* ---- the two machines side by side ---- *)
Definition same_message (p : side * request) (e : side * mtype * bytes) : Prop :=
  match p, e with (x, q), (f, ty, b) =>
    x = f /\ exists reg ts, u64 ts /\ q = mkReq (ac_name (ac (other x))) ts [mkJ ty 1 reg (enc64 b)] end.
Definition same_text (t : side * bytes * Z * Z) (m : smsg) : Prop :=
  let '(x, text, timer, now) := t in sm_from m = x /\ sm_pt m = padded x text timer now /\ wfb text /\ u32 timer /\ u64 now /\
    zlen (marshal_data (createMessage (ac_pkey (ac x)) now (the_out x text timer))) < 2 ^ 59.
Record R (y : net) (cy : sys) (sp : spec) (ts : list (side * bytes * Z * Z)) : Prop := {
  r_b : nd_w (nt_node y SB) = y_w cy SB;
  r_a : nd_w (nt_node y SA) = y_w cy SA \/
        (sp_sent sp = [] /\ sp_epoch sp SB = 0%nat /\ nd_w (nt_node y SA) = st_w st SA /\ y_w cy SA = y_w (start C st) SA /\ nd_rnd (nt_node y SA) = 0%nat);
  r_net : Forall2 same_message (nt_relay y) (y_net cy);
  r_devs : forall x, nd_devs (nt_node y x) (ac_name (ac (other x))) = None \/ nd_devs (nt_node y x) (ac_name (ac (other x))) = Some [1];
  r_texts : Forall2 same_text ts (sp_sent sp) }.

Lemma perform_send y x pt b l : perform C (st_peer st) y (Send x pt) = (x, Ok b, l) ->
  SessionEncryptMessage C (y_w y x) (ac_name (ac (other x))) 1 pt = (Ok (b, sent_type C (st_peer st) y (Send x pt)), l).
Proof.
  unfold perform, sent_type. rewrite Names. cbn [fst snd].
  destruct (SessionEncryptMessage C (y_w y x) (ac_name (ac (other x))) 1 pt) as [[[b' ty]|e|] l']; cbn [bind fst]; intros H.
  - injection H as <- <-. reflexivity.
  - discriminate H.
  - discriminate H.
Qed.

Lemma Forall2_snoc {A B} (P : A -> B -> Prop) l l' a b : Forall2 P l l' -> P a b -> Forall2 P (l ++ [a]) (l' ++ [b]).
Proof. intros H K. apply Forall2_app; [exact H|]. constructor; [exact K|constructor]. Qed.

Lemma start_first b l : BuildSenderSession C (st_w st SA) (ac_name (ac SB)) 1 (the_bundle C st) (st_rbase st) (st_rratchet st) = (b, l) ->
  y_w (start C st) SA = apply_effs (st_w st SA) l /\ b = Ok tt.
Proof.
  intros H. unfold start. rewrite (Names SA). cbn [fst snd other]. rewrite H. cbn [y_w]. rewrite upd_same. split; [reflexivity|].
  unfold BuildSenderSession in H. cbn [b_ident b_spk b_sig the_bundle] in H.
  pose proof (so_trust _ _ SO SA) as T. rewrite (Names SA) in T. cbn [fst other] in T. rewrite T in H. cbn [negb] in H.
  rewrite (so_sig _ _ SO) in H. cbn [negb] in H. injection H as <- _. reflexivity.
Qed.

(* a text is sent *)
Lemma text_step eps y cy sp ts x text timer now acts :
  Inv C st eps cy sp (Send x (padded x text timer now) :: acts) -> R y cy sp ts ->
  sp_epoch sp x <> 0%nat -> wfb text -> u32 timer -> u64 now ->
  zlen (marshal_data (createMessage (ac_pkey (ac x)) now (the_out x text timer))) < 2 ^ 59 ->
  let a := UText x text timer now in
  fst (do_text C st ac y x text timer now) = Some (Ok now) /\
  nt_calls (ustep y a) = nt_calls y /\
  Inv C st eps (step C (st_peer st) cy (abstract a)) (spec_step sp (abstract a)) acts /\
  R (ustep y a) (step C (st_peer st) cy (abstract a)) (spec_step sp (abstract a)) (ts ++ [(x, text, timer, now)]).
Proof.
  intros I HR Ep Wt Ut Un Sz a. set (pt := padded x text timer now) in *.
  assert (Wp : wfb pt) by (apply pad_wf, create_wf, the_out_ok; assumption).
  assert (Zp : zlen pt < 2 ^ 60).
  { unfold pt, Whole.padded. rewrite pad_length. set (n := zlen _) in *. pose proof (Z.mul_div_le n 160 ltac:(lia)). lia. }
  destruct (send_step C OK st SO _ _ _ _ _ _ I Ep Wp Zp) as (b & l & HP & HI).
  pose proof (perform_send _ _ _ _ _ HP) as HE. set (ty := sent_type C (st_peer st) cy (Send x pt)) in *.
  set (cs := mkCs (relay x) (nd_w (nt_node y x)) (nd_devs (nt_node y x)) (nd_rnd (nt_node y x)) (nt_relay y) []).
  set (name := ac_name (ac (other x))) in *.
  assert (Dv : cs_devs (relay x) cs name = None \/ cs_devs (relay x) cs name = Some [1]) by apply (r_devs _ _ _ _ HR x).
  (* a session is there or made *)
  assert (En : exists st1, ensure_session C (relay x) (ac_rand (ac x)) (default_devs (relay x) cs name) name name 1 = (Ok tt, st1) /\
     cs_w (relay x) st1 = y_w cy x /\ cs_srv (relay x) st1 = nt_relay y /\ cs_devs (relay x) st1 name = Some [1]).
  { assert (DW : cs_w (relay x) (default_devs (relay x) cs name) = nd_w (nt_node y x) /\
                 cs_srv (relay x) (default_devs (relay x) cs name) = nt_relay y /\
                 cs_rnd (relay x) (default_devs (relay x) cs name) = nd_rnd (nt_node y x) /\
                 cs_devs (relay x) (default_devs (relay x) cs name) name = Some [1]).
    { unfold default_devs. destruct Dv as [D|D]; rewrite D; [|split; [reflexivity|]; split; [reflexivity|]; split; [reflexivity|exact D]].
      split; [reflexivity|]. split; [reflexivity|]. split; [reflexivity|]. unfold set_devs. cbn [cs_devs]. rewrite beq_refl. reflexivity. }
    destruct DW as (DW & DSv & DR & DL).
    assert (Known : nd_w (nt_node y x) = y_w cy x -> exists st1, ensure_session C (relay x) (ac_rand (ac x)) (default_devs (relay x) cs name) name name 1 = (Ok tt, st1) /\
       cs_w (relay x) st1 = y_w cy x /\ cs_srv (relay x) st1 = nt_relay y /\ cs_devs (relay x) st1 name = Some [1]).
    { intros EW. pose proof (iv_sess _ _ _ _ _ _ I x) as Sx. unfold sess_ok in Sx. destruct (sp_epoch sp x) as [|n]; [elim Ep; reflexivity|].
      destruct Sx as (s & p & Hs & _). unfold rid, dev in Hs. rewrite (Names x) in Hs. cbn [fst snd] in Hs. fold name in Hs.
      exists (default_devs (relay x) cs name). split; [|split; [rewrite DW; exact EW|split; [exact DSv|exact DL]]].
      unfold ensure_session. rewrite DW, EW, Hs. reflexivity. }
    destruct x.
    - destruct (r_a _ _ _ _ HR) as [EW|(_ & _ & EW & ES & ER)]; [exact (Known EW)|].
      destruct (BuildSenderSession C (st_w st SA) (ac_name (ac SB)) 1 (the_bundle C st) (st_rbase st) (st_rratchet st)) as [rb lb] eqn:HB.
      destruct (start_first _ _ HB) as [SF ->].
      unfold ensure_session. rewrite DW, EW. pose proof First as F. rewrite (Names SA) in F. cbn [fst other] in F.
      change name with (ac_name (ac SB)). rewrite F.
      unfold makePreKeyBundle. cbn [Whole.relay sv_prekeys]. rewrite beq_refl. cbn [andb Z.eqb Pos.eqb].
      destruct Sig as [Ws Ls]. rewrite (published_bundle C OK st SO Ws Ls).
      cbn [cs_w cs_rnd cs_devs cs_srv cs_log]. replace (b_dev (the_bundle C st)) with 1 by (unfold the_bundle; cbn [b_dev]; rewrite (Names SA); reflexivity).
      change name with (ac_name (ac SB)) in DW, DSv, DR, DL. change (Whole.relay C st ac SA) with (relay SA). rewrite DW, EW, DR, ER.
      destruct Rand as [R0 R1]. rewrite R0, R1, HB. eexists. split; [reflexivity|]. cbn [cs_w cs_srv cs_devs].
      split; [symmetry; rewrite ES; exact SF|]. split; [exact DSv|exact DL].
    - exact (Known (r_b _ _ _ _ HR)). }
  destruct En as (st1 & En & E1 & E2 & E3). rewrite <- E1 in HE.
  destruct (send_once x text timer now cs st1 b ty l Dv En HE) as (cs' & reg & S1 & S2 & S3 & S4 & S5).
  assert (DT : do_text C st ac y x text timer now = (Some (Ok now), ustep y a)).
  { unfold ustep, Whole.ustep, a. unfold do_text. cbv zeta. fold cs. rewrite S1. reflexivity. }
  assert (Uy : ustep y a = mkNet (upd_side (nt_node y) x (mkNode (cs_w (relay x) cs') (cs_devs (relay x) cs') (cs_rnd (relay x) cs') (nd_pkeys (nt_node y x))))
        (cs_srv (relay x) cs') (nt_calls y)).
  { unfold ustep, Whole.ustep, a. unfold do_text. cbv zeta. fold cs. rewrite S1. reflexivity. }
  assert (Cy : step C (st_peer st) cy (abstract a) = mkSys (upd_side (y_w cy) x (apply_effs (y_w cy x) l)) (y_net cy ++ [(x, ty, b)])).
  { unfold step, abstract, Whole.abstract, a. fold pt. rewrite HP. reflexivity. }
  split; [rewrite DT; reflexivity|]. split; [rewrite Uy; reflexivity|]. split; [exact HI|].
  rewrite Uy, Cy. constructor; cbn [nt_node nt_relay y_w y_net].
  - destruct x; [exact (r_b _ _ _ _ HR)|]. rewrite !upd_same. cbn [nd_w]. rewrite S2, E1. reflexivity.
  - destruct x; [left; rewrite !upd_same; cbn [nd_w]; rewrite S2, E1; reflexivity|].
    destruct (r_a _ _ _ _ HR) as [EW|(_ & E0 & _)]; [left; exact EW|elim Ep; exact E0].
  - rewrite S5, E2. apply Forall2_snoc; [exact (r_net _ _ _ _ HR)|]. split; [reflexivity|]. exists reg, now. split; [exact Un|reflexivity].
  - intros z. destruct (side_dec x z) as [<-|<-].
    + rewrite upd_same. cbn [nd_devs]. right. rewrite S3. exact E3.
    + rewrite upd_other. apply (r_devs _ _ _ _ HR).
  - unfold abstract, Whole.abstract, a. cbn [spec_step sp_sent]. apply Forall2_snoc; [exact (r_texts _ _ _ _ HR)|].
    split; [reflexivity|]. split; [reflexivity|]. split; [exact Wt|]. split; [exact Ut|]. split; [exact Un|exact Sz].
Qed.

(* ---- receiving ---- *)
Lemma Encrypt_longer key iv p c : wfb p -> length iv = 16%nat -> wfb iv -> Encrypt C key iv p = Ok c -> zlen p <= zlen c.
Proof.
  intros Wp Li Wi H. unfold Encrypt in H. destruct (aes_key_ok key) eqn:K; [|discriminate H]. rewrite Li in H. cbn [negb Nat.eqb] in H. injection H as <-.
  destruct (padded_blocks p Wp) as [Hb Hc]. pose proof (cbc_enc_blocks C OK key iv _ K (conj Li Wi) Hb) as Hcb.
  unfold zlen. rewrite (concat_length16 _ Hcb).
  assert (L : forall k v bl, length (cbc_enc C k v bl) = length bl).
  { clear. intros k v bl; revert v; induction bl; intros; simpl; auto. }
  rewrite L. rewrite <- (concat_length16 _ Hb), Hc. pose proof (pkcs_pad_facts p) as (_ & _ & _ & Hl & _). cbv zeta in *. lia.
Qed.
Lemma body_read sk p body : wfb p -> p <> [] -> body_of_envelope C sk p body ->
  decryptReceivedMessage C sk body = Ok p /\ body <> [] /\ zlen p <= zlen body.
Proof.
  intros Wp Np [(v & iv & c & Ls & Li & Wi & E & ->)|(-> & L1 & L2 & N)].
  - split; [apply (C38_sealed_round_trip C OK); assumption|]. split; [intros X; discriminate X|].
    pose proof (Encrypt_longer _ _ _ _ Wp Li Wi E) as X. rewrite zlen_app, zlen_cons, zlen_app.
    pose proof (zlen_nonneg iv). pose proof (zlen_nonneg (firstn 10 (hmac C (skipn 32 sk) (v :: iv ++ c)))). lia.
  - split; [apply C38_unauthenticated_is_processed; assumption|]. split; [exact Np|lia].
Qed.
Lemma env_wf t src ts b sts : wfb src -> wfb b -> u64 ts -> u64 sts ->
  wfb (env_bytes (mkEnv (Some (env_type t)) (Some src) (Some 1) None (Some ts) (Some b) (Some sts))).
Proof.
  intros W1 W2 U1 U2. unfold u64 in *. apply marshal_wf. unfold envelope_slots. cbn [e_type e_ts e_device e_content e_sts e_source e_dest o_varint o_len].
  assert (T : 0 <= env_type t) by (destruct t; cbn; lia).
  assert (V : forall n, 0 <= n -> Forall wf_val [WVarint n]) by (intros n H; constructor; [cbn; lia|constructor]).
  assert (B : forall x, wfb x -> Forall wf_val [WLen x]) by (intros x H; constructor; [exact H|constructor]).
  do 6 (constructor; [split; [cbn [fst]; lia|cbn [snd]; (apply B; assumption) || (apply V; lia)]|]).
  constructor; [split; [cbn [fst]; lia|constructor]|constructor].
Qed.
Lemma env_nonempty t src ts b sts : env_bytes (mkEnv (Some (env_type t)) (Some src) (Some 1) None (Some ts) (Some b) (Some sts)) <> [].
Proof. destruct t; intros X; discriminate X. Qed.

Lemma deliver_text x text timer now ou t ets b sts : wfb text -> u32 timer -> u64 now ->
  zlen (marshal_data (createMessage (ac_pkey (ac x)) now (the_out x text timer))) < 2 ^ 59 ->
  deliver C ou (mkEnv t (Some (ac_name (ac x))) (Some 1) None ets b sts) (padded x text timer now)
  = (Ok tt, [ACall (presented ac (x, text, timer, now))]).
Proof.
  intros W T N S. unfold deliver, handleMessage. cbn [e_source e_sts g_bytes]. unfold Whole.padded. rewrite strip_pad.
  rewrite unmarshal_marshal_data; [|apply create_ok, the_out_ok; assumption|unfold fits; lia]. cbn [c_data].
  unfold handleDataMessage, handleFlags, andthen, pure, createMessage. cbn [the_out Whole.the_out o_text o_att o_flags o_expire o_time o_gv2 d_flags g_num Z.eqb d_atts handleAttachments d_ts d_gv2 d_expire d_pkey d_quote d_contact d_sticker d_reaction d_body app].
  unfold presented. destruct text; reflexivity.
Qed.

Lemma refused_frame e st0 ou rnd rnd2 ty b : e_type e = Some (env_type ty) -> e_content e = Some b -> recID (source e) = Ok (source e) ->
  (forall r, receive C (rs_w st0) (source e) (device e) ty b r = (Err EInvalidMessage, [])) ->
  exists o, o <> Panic /\ handleReceivedMessage C ou st0 rnd rnd2 (Some e) = (o, []).
Proof.
  intros T B RI R0. unfold handleReceivedMessage. rewrite T. destruct ty; cbn [env_type Z.eqb Pos.eqb].
  - unfold handle_cipher. rewrite B. unfold receive, source, device in R0, RI.
    destruct (LoadWhisperMessage b) as [wm|x|]; [|pose proof (R0 rnd) as X; injection X as ->|pose proof (R0 rnd) as X; discriminate X].
    + unfold stored. rewrite (R0 rnd). cbn [fst snd map apply_acts fold_left]. rewrite RI, (R0 rnd2). cbn [fst snd map app].
      eexists. split; [|reflexivity]. intros X; discriminate X.
    + eexists. split; [|reflexivity]. intros X; discriminate X.
  - unfold handle_prekey. rewrite B. cbn [g_bytes]. unfold receive, source, device in R0.
    destruct (LoadPreKeyWhisperMessage b) as [wm|x|]; [|pose proof (R0 rnd) as X; injection X as ->|pose proof (R0 rnd) as X; discriminate X].
    + unfold stored. rewrite (R0 rnd). cbn [fst snd map]. eexists. split; [|reflexivity]. intros X; discriminate X.
    + eexists. split; [|reflexivity]. intros X; discriminate X.
Qed.

Lemma trace_calls_acts l id : trace_calls (map TAct l ++ [TAck id]) = calls l.
Proof.
  unfold trace_calls. rewrite flat_map_app. cbn [flat_map]. rewrite app_nil_r.
  induction l as [|a l IH]; [reflexivity|]. cbn [map flat_map calls]. rewrite IH. reflexivity.
Qed.

(* a frame with message j arrives *)
Lemma frame_step eps y cy sp ts j f id acts :
  Inv C st eps cy sp (Deliver j (fr_rnd f) :: acts) -> R y cy sp ts ->
  length (fr_rnd f 0%nat) = 32%nat -> carries C ac y j f id ->
  (deliverable sp j = true \/ (no_history st /\ repeated sp j = true)) ->
  let a := UFrame j f in
  exists t l eps', nth_error ts j = Some t /\
    let x := other (fst (fst (fst t))) in
    fst (do_frame C ac y x f) = (map TAct l ++ [TAck id], Listening) /\
    (deliverable sp j = true -> calls l = [presented ac t]) /\
    (repeated sp j = true -> calls l = [] /\ nt_node (snd (do_frame C ac y x f)) x = nt_node y x) /\
    nt_calls (ustep y a) = upd_side (nt_calls y) x (nt_calls y x ++ calls l) /\
    Inv C st eps' (step C (st_peer st) cy (abstract a)) (spec_step sp (abstract a)) acts /\
    R (ustep y a) (step C (st_peer st) cy (abstract a)) (spec_step sp (abstract a)) ts.
Proof.
  intros I HR Lr (x & q & jm & b & sts & verb & path & body & Hq & Hj & Hb & Hbody & Hf & Uid & Usts & Hsz) Hd a.
  (* the message in the conversation *)
  destruct (Forall2_nth _ _ _ _ _ (r_net _ _ _ _ HR) Hq) as ([[f0 ty] b0] & Hn & Hsame).
  destruct Hsame as (<- & reg & ets & Uts & ->). cbn [q_msgs] in Hj. injection Hj as <-. cbn [j_type j_content q_ts] in *.
  assert (Hm : exists m, nth_error (sp_sent sp) j = Some m).
  { destruct (nth_error (sp_sent sp) j) as [m|] eqn:E; [eauto|]. exfalso. apply nth_error_None in E.
    pose proof (Forall2_len _ _ _ (iv_net _ _ _ _ _ _ I)) as L. rewrite L in E. apply nth_error_None in E. rewrite E in Hn. discriminate Hn. }
  destruct Hm as (m & Hm).
  destruct (Forall2_nth _ _ _ _ _ (iv_net _ _ _ _ _ _ I) Hm) as (e' & Hn' & Hmsg). rewrite Hn in Hn'. injection Hn' as <-.
  assert (Hfrom : x = sm_from m) by apply Hmsg.
  pose proof (iv_spec _ _ _ _ _ _ I) as K. destruct (sk_sent _ K _ _ Hm) as (_ & _ & _ & _ & Wpt & Zpt).
  assert (Wb0 : wfb b0) by exact (msg_wf _ _ _ Hmsg Wpt).
  rewrite (dec64_enc64 _ Wb0) in Hb. injection Hb as <-.
  (* the text *)
  assert (Ht : exists t, nth_error ts j = Some t /\ same_text t m).
  { clear -HR Hm. pose proof (r_texts _ _ _ _ HR) as F. clear HR. revert j Hm. induction F as [|t m' ts' ms H F IH]; intros [|j] Hj; cbn in Hj; try discriminate Hj.
    - injection Hj as <-. exists t. split; [reflexivity|exact H].
    - exact (IH j Hj). }
  destruct Ht as ([[[x' text] timer] now] & Ht & Hx & Hpt & Wt & Ut & Un & Sz). rewrite <- Hfrom in Hx. subst x'.
  (* the frame *)
  set (z := other x) in *.
  set (e := mkEnv (Some (env_type ty)) (Some (ac_name (ac x))) (Some 1) None (Some ets) (Some b0) (Some sts)) in *.
  destruct (body_read _ _ _ (env_wf ty _ ets b0 sts (NamesWf x) Wb0 Uts Usts) (env_nonempty _ _ _ _ _) Hbody) as (BD & BN & BL). fold e in BD, BL.
  rewrite Hf in Hsz. pose proof (sub_body verb path body id) as SB0.
  assert (CE : createEnvelope (env_bytes e) = Some e) by (apply envelope_read; [exact Uts|exact Usts|fold e; lia]).
  assert (WS : unmarshal_ws (fr_bytes f) = Some (Some (mkWsReq (Some path) (Some body) (Some id)))) by (rewrite Hf; apply request_frame_read; assumption).
  assert (PN : st_peer st z = (source e, device e)) by (rewrite Names; unfold z; rewrite other_other; reflexivity).
  (* the receiver's store *)
  assert (EW : nd_w (nt_node y z) = y_w cy z).
  { unfold z. destruct x; cbn [other]; [exact (r_b _ _ _ _ HR)|]. destruct (r_a _ _ _ _ HR) as [EW|(E0 & _)]; [exact EW|].
    rewrite E0 in Hm. destruct j; discriminate Hm. }
  set (rs := mkRs (nd_w (nt_node y z)) (nd_pkeys (nt_node y z))).
  assert (PF : forall rnd, perform C (st_peer st) cy (Deliver j rnd) =
      (z, fst (receive C (rs_w rs) (source e) (device e) ty b0 rnd), snd (receive C (rs_w rs) (source e) (device e) ty b0 rnd))).
  { intros rnd. unfold perform. rewrite Hn. fold z. rewrite PN. cbn [fst snd rs rs_w]. rewrite EW.
    destruct (receive C (y_w cy z) (source e) (device e) ty b0 rnd). reflexivity. }
  (* what the loop does *)
  assert (Loop : forall o l, o <> Panic -> handleReceivedMessage C (fr_out f) rs (fr_rnd f) (fr_rnd2 f) (Some e) = (o, l) ->
    do_frame C ac y z f = (map TAct l ++ [TAck id], Listening,
      mkNet (upd_side (nt_node y) z (mkNode (rs_w (apply_acts rs l)) (nd_devs (nt_node y z)) (nd_rnd (nt_node y z)) (rs_pkeys (apply_acts rs l)))) (nt_relay y)
            (upd_side (nt_calls y) z (nt_calls y z ++ calls l)))).
  { intros o l NP HH. unfold do_frame. cbv zeta. fold rs. cbn [listen]. rewrite WS. cbn [request_body wr_body g_bytes].
    unfold handle_body. destruct body as [|c0 body0]; [elim BN; reflexivity|]. rewrite BD, CE, HH.
    destruct o as [u|er|]; [| |elim NP; reflexivity]; cbn [request_id wr_id g_num]; rewrite trace_calls_acts; reflexivity. }
  assert (US : ustep y a = snd (do_frame C ac y z f)).
  { unfold ustep, Whole.ustep, a. rewrite Hq. reflexivity. }
  assert (Wrap : forall l, R y cy sp ts -> forall wl, (forall v, y_w (step C (st_peer st) cy (abstract a)) v = upd_side (y_w cy) z (apply_effs (y_w cy z) wl) v) ->
    y_net (step C (st_peer st) cy (abstract a)) = y_net cy -> sp_sent (spec_step sp (abstract a)) = sp_sent sp ->
    rs_w (apply_acts rs l) = apply_effs (y_w cy z) wl -> forall cl pk,
    R (mkNet (upd_side (nt_node y) z (mkNode (rs_w (apply_acts rs l)) (nd_devs (nt_node y z)) (nd_rnd (nt_node y z)) pk)) (nt_relay y) cl)
      (step C (st_peer st) cy (abstract a)) (spec_step sp (abstract a)) ts).
  { intros l _ wl Hw Hnet Hss HE cl pk. constructor; cbn [nt_node nt_relay].
    - rewrite Hw. destruct (side_dec z SB) as [Z|Z].
      + rewrite <- Z, !upd_same. cbn [nd_w]. exact HE.
      + rewrite <- Z, !upd_other. rewrite Z. exact (r_b _ _ _ _ HR).
    - left. rewrite Hw. destruct (side_dec z SA) as [Z|Z].
      + rewrite <- Z, !upd_same. cbn [nd_w]. exact HE.
      + rewrite <- Z, !upd_other. rewrite Z. destruct (r_a _ _ _ _ HR) as [X|(E0 & _)]; [exact X|].
        rewrite E0 in Hm. destruct j; discriminate Hm.
    - rewrite Hnet. exact (r_net _ _ _ _ HR).
    - intros v. destruct (side_dec z v) as [<-|<-]; [rewrite upd_same|rewrite upd_other]; apply (r_devs _ _ _ _ HR).
    - rewrite Hss. exact (r_texts _ _ _ _ HR). }
  destruct (deliverable sp j) eqn:Dl.
  - (* a new message *)
    destruct (deliver_step C OK st SO _ _ _ _ _ _ I Lr Dl) as (m' & l & eps' & Hm' & HP & HI). rewrite Hm in Hm'. injection Hm' as <-.
    rewrite PF in HP. assert (RC : receive C (rs_w rs) (source e) (device e) ty b0 (fr_rnd f) = (Ok (sm_pt m), l)).
    { destruct (receive C (rs_w rs) (source e) (device e) ty b0 (fr_rnd f)) as [r0 l0]. cbn [fst snd] in HP. injection HP as _ -> ->. reflexivity. }
    assert (DE : decrypts C rs e (fr_rnd f) (sm_pt m) l).
    { exists (env_type ty), ty, b0. split; [reflexivity|]. split; [destruct ty; reflexivity|]. split; [reflexivity|exact RC]. }
    pose proof (handle_decrypted C (fr_out f) rs (fr_rnd f) (fr_rnd2 f) e _ _ DE) as HH.
    rewrite Hpt in HH. unfold e in HH at 2 3. rewrite (deliver_text x text timer now _ _ _ _ _ Wt Ut Un Sz) in HH. cbn [fst snd] in HH.
    assert (NP : @Ok unit tt <> Panic) by (intros X; discriminate X). pose proof (Loop _ _ NP HH) as DF.
    set (l' := map AStore l ++ [ACall (presented ac (x, text, timer, now))]) in *.
    assert (CL : calls l' = [presented ac (x, text, timer, now)]) by (unfold l'; rewrite calls_app, calls_stores; reflexivity).
    exists (x, text, timer, now), l', eps'. split; [exact Ht|]. cbv zeta. cbn [fst]. fold z. rewrite US, DF. cbn [fst snd nt_calls nt_node].
    split; [reflexivity|]. split; [intros _; exact CL|].
    split; [intros X; apply rep_not_del in X; rewrite Dl in X; discriminate X|]. split; [reflexivity|]. split; [exact HI|].
    apply (Wrap l' HR l).
    + intros v. unfold step, abstract, Whole.abstract, a. rewrite PF, RC. reflexivity.
    + unfold step, abstract, Whole.abstract, a. rewrite PF, RC. reflexivity.
    + unfold abstract, Whole.abstract, a. rewrite (spec_deliver_eq sp j _ m Dl Hm). apply delivered_sent.
    + unfold l'. rewrite apply_acts_app, acts_stores. cbn [apply_acts fold_left apply_act rs_w rs]. rewrite EW. reflexivity.
  - (* a repeated one *)
    destruct Hd as [X|[NH Rp]]; [discriminate X|].
    assert (RC : forall r, receive C (rs_w rs) (source e) (device e) ty b0 r = (Err EInvalidMessage, [])).
    { intros r. destruct (repeat_step C OK st SO _ _ _ _ _ r _ I NH Rp) as (m' & _ & HP). rewrite PF in HP.
      destruct (receive C (rs_w rs) (source e) (device e) ty b0 r) as [r0 l0]. cbn [fst snd] in HP. injection HP as _ -> ->. reflexivity. }
    destruct (refused_frame e rs (fr_out f) (fr_rnd f) (fr_rnd2 f) ty b0 eq_refl eq_refl (Uuid x) RC) as (o & NP & HH).
    pose proof (Loop _ _ NP HH) as DF.
    assert (PE : perform C (st_peer st) cy (Deliver j (fr_rnd f)) = (z, Err EInvalidMessage, [])) by (rewrite PF, RC; reflexivity).
    assert (HS : spec_step sp (Deliver j (fr_rnd f)) = sp) by (unfold spec_step; rewrite Dl; reflexivity).
    exists (x, text, timer, now), [], eps. split; [exact Ht|]. cbv zeta. cbn [fst]. fold z. rewrite US, DF. cbn [fst snd nt_calls nt_node].
    split; [reflexivity|]. split; [intros X; discriminate X|].
    split; [intros _; split; [reflexivity|]; rewrite upd_same; unfold rs; cbn [apply_acts fold_left rs_w rs_pkeys]; destruct (nt_node y z); reflexivity|].
    split; [reflexivity|]. split.
    + apply (quiet_step C st _ _ _ _ _ z (Err EInvalidMessage) [] I eq_refl HS PE). constructor.
    + apply (Wrap [] HR []).
      * intros v. unfold step, abstract, Whole.abstract, a. rewrite PE. reflexivity.
      * unfold step, abstract, Whole.abstract, a. rewrite PE. reflexivity.
      * unfold abstract, Whole.abstract, a. rewrite HS. reflexivity.
      * cbn [apply_acts fold_left apply_effs rs rs_w]. exact EW.
Qed.
End P.

(* ------------------------------------------------------------------------------------------ *)
(* what a side has been shown, from the list of texts *)
Definition shown (ac : side -> account) (x : side) (ts : list (side * bytes * Z * Z)) (got : list nat) : list hcall :=
  flat_map (fun j => match nth_error ts j with
                     | Some t => if side_eqb (fst (fst (fst t))) x then [] else [presented ac t]
                     | None => [] end) (rev got).
Lemma shown_more ac x ts t got : (forall j, In j got -> (j < length ts)%nat) -> shown ac x (ts ++ [t]) got = shown ac x ts got.
Proof.
  intros H. unfold shown. assert (G : forall l, (forall j, In j l -> (j < length ts)%nat) ->
    flat_map (fun j => match nth_error (ts ++ [t]) j with Some t => if side_eqb (fst (fst (fst t))) x then [] else [presented ac t] | None => [] end) l =
    flat_map (fun j => match nth_error ts j with Some t => if side_eqb (fst (fst (fst t))) x then [] else [presented ac t] | None => [] end) l).
  { induction l as [|j l IH]; intros L; [reflexivity|]. cbn [flat_map]. rewrite nth_error_app1 by (apply L; left; reflexivity).
    rewrite IH; [reflexivity|]. intros k K. apply L. right. exact K. }
  apply G. intros j J. apply H. apply in_rev. exact J.
Qed.
Lemma texts_app a b : texts (a ++ b) = texts a ++ texts b.
Proof. apply flat_map_app. Qed.

(* accounts that fit the conversation: each knows the other by UUID, as device 1; A has not written before *)
Record accounts_ok (st : setup) (ac : side -> account) : Prop := {
  ao_peer : forall x, st_peer st x = (ac_name (ac (other x)), 1);
  ao_uuid : forall x, recID (ac_name (ac x)) = Ok (ac_name (ac x));
  ao_name : forall x, wfb (ac_name (ac x));
  ao_pkey : forall x, opt wfb (ac_pkey (ac x));
  ao_sig : wfb (st_sig st) /\ length (st_sig st) = 64%nat;
  ao_first : w_sess (st_w st SA) (fst (st_peer st SA)) 1 = None;
  ao_rand : ac_rand (ac SA) 0%nat = st_rbase st /\ ac_rand (ac SA) 1%nat = st_rratchet st }.

Lemma whole_run C (OK : crypto_ok C) st (SO : setup_ok C st) ac (AO : accounts_ok st ac) : forall acts y cy sp before eps,
  Inv C st eps cy sp (map (abstract ac) acts) -> R C st ac y cy sp (texts before) ->
  (forall x, nt_calls y x = shown ac x (texts before) (sp_got sp)) ->
  feasible C st ac y sp acts ->
  (forall pre a post, acts = pre ++ a :: post ->
     fulfilled C st ac (urun C st ac y pre) (spec_run sp (map (abstract ac) pre)) (before ++ pre) a) /\
  (forall x, nt_calls (urun C st ac y acts) x = shown ac x (texts (before ++ acts)) (sp_got (spec_run sp (map (abstract ac) acts)))).
Proof.
  destruct AO as [A1 A2 A3 A4 A5 A6 A7].
  induction acts as [|a acts IH]; intros y cy sp before eps I HR HC HF.
  { split; [intros pre a post X; destruct pre; discriminate X|]. intros x. rewrite app_nil_r. exact (HC x). }
  cbn [map] in I. destruct HF as [HP HF].
  assert (Next : fulfilled C st ac y sp before a /\ exists eps', 
     Inv C st eps' (step C (st_peer st) cy (abstract ac a)) (spec_step sp (abstract ac a)) (map (abstract ac) acts) /\
     R C st ac (ustep C st ac y a) (step C (st_peer st) cy (abstract ac a)) (spec_step sp (abstract ac a)) (texts (before ++ [a])) /\
     forall x, nt_calls (ustep C st ac y a) x = shown ac x (texts (before ++ [a])) (sp_got (spec_step sp (abstract ac a)))).
  { pose proof (iv_spec _ _ _ _ _ _ I) as K.
    assert (LT : length (texts before) = length (sp_sent sp)) by apply (Forall2_len _ _ _ (r_texts _ _ _ _ _ _ _ HR)).
    destruct a as [x text timer now|j f].
    - destruct HP as (P1 & P2 & P3 & P4 & P5).
      destruct (text_step C OK st SO ac A1 A2 A3 A4 A5 A6 A7 eps y cy sp (texts before) x text timer now _ I HR P1 P2 P3 P4 P5) as (T1 & T2 & T3 & T4).
      split; [exact T1|]. exists eps. split; [exact T3|]. rewrite texts_app. split; [exact T4|].
      intros z. rewrite T2, HC. cbn [Whole.abstract abstract spec_step sp_got texts flat_map app]. symmetry. apply shown_more.
      intros j J. destruct (sk_got _ K _ J) as (m & Hm & _). rewrite LT. apply nth_error_Some. rewrite Hm. intros X; discriminate X.
    - destruct HP as (P1 & (id & P2) & P3).
      destruct (frame_step C OK st SO ac A1 A2 A3 A4 A5 eps y cy sp (texts before) j f id _ I HR P1 P2 P3) as (t & l & eps' & T1 & T2 & T3 & T4 & T5 & T6 & T7).
      cbv zeta in *. split; [exists t, l, id; split; [exact T1|]; split; [exact P2|]; cbv zeta; split; [exact T2|]; split; [exact T3|exact T4]|].
      exists eps'. split; [exact T6|]. rewrite texts_app. cbn [texts flat_map app]. rewrite app_nil_r. split; [exact T7|].
      intros z. rewrite T5. cbn [Whole.abstract abstract].
      assert (Hm : exists m, nth_error (sp_sent sp) j = Some m).
      { destruct (nth_error (sp_sent sp) j) as [m|] eqn:E; [eauto|]. apply nth_error_None in E. rewrite <- LT in E. apply nth_error_None in E.
        rewrite E in T1. discriminate T1. }
      destruct Hm as (m & Hm). destruct (deliverable sp j) eqn:Dl.
      + rewrite (spec_deliver_eq sp j _ m Dl Hm), delivered_got, (T3 eq_refl). unfold shown. cbn [rev]. rewrite flat_map_app. cbn [flat_map].
        rewrite T1, app_nil_r. pose proof (HC z) as HCz. unfold shown in HCz. rewrite <- HCz.
        destruct (side_dec (fst (fst (fst t))) z) as [<-|<-].
        * rewrite side_eqb_refl, app_nil_r. unfold upd_side. rewrite side_eqb_other. reflexivity.
        * assert (S : side_eqb (fst (fst (fst t))) (other (fst (fst (fst t)))) = false) by (destruct (fst (fst (fst t))); reflexivity).
          rewrite S, upd_same. reflexivity.
      + destruct P3 as [X|[_ Rp]]; [discriminate X|]. destruct (T4 Rp) as [-> _]. rewrite app_nil_r.
        unfold spec_step. rewrite Dl. unfold upd_side. rewrite <- HC.
        destruct (side_eqb (other (fst (fst (fst t)))) z) eqn:E; [|reflexivity].
        destruct (fst (fst (fst t))), z; cbn in E; try discriminate E; reflexivity. }
  destruct Next as (N1 & eps' & N2 & N3 & N4).
  destruct (IH _ _ _ _ _ N2 N3 N4 HF) as [I1 I2]. split.
  - intros pre b post H. destruct pre as [|c pre]; cbn [app] in H; injection H as <- ->.
    + rewrite app_nil_r. exact N1.
    + specialize (I1 pre b post eq_refl). rewrite <- app_assoc in I1. exact I1.
  - intros x. specialize (I2 x). rewrite <- app_assoc in I2. exact I2.
Qed.

(* C160. Two clients and a server that passes messages on, in any order, any of them late, some twice: for every schedule of texts and
   frames each SendMessage succeeds, each frame with a new message makes exactly one call of the message callback, with the text, time,
   timer and profile key that were sent and the sender's UUID, and is acknowledged; a repeated one makes none, and leaves the receiver as it was. *)
Theorem C160_conversation_is_presented : forall C, crypto_ok C -> forall st, setup_ok C st -> forall ac, accounts_ok st ac ->
  forall devs pkeys acts,
  (forall x, devs x (ac_name (ac (other x))) = None \/ devs x (ac_name (ac (other x))) = Some [1]) ->
  good_schedule C st (map (abstract ac) acts) ->
  feasible C st ac (begin_net st devs pkeys) spec0 acts ->
  (forall pre a post, acts = pre ++ a :: post ->
     fulfilled C st ac (urun C st ac (begin_net st devs pkeys) pre) (spec_run spec0 (map (abstract ac) pre)) pre a) /\
  (forall x, nt_calls (urun C st ac (begin_net st devs pkeys) acts) x
     = delivered_to ac x acts (sp_got (spec_run spec0 (map (abstract ac) acts)))).
Proof.
  intros C OK st SO ac AO devs pkeys acts HD HG HF. destruct (start_inv C OK st SO _ HG) as (eps & I).
  apply (whole_run C OK st SO ac AO acts _ (start C st) spec0 [] eps I); [|intros x; reflexivity|exact HF].
  constructor.
  - unfold start. destruct (BuildSenderSession _ _ _ _ _ _ _) as [r l]. reflexivity.
  - right. split; [reflexivity|]. split; [reflexivity|]. split; [reflexivity|]. split; reflexivity.
  - unfold start. destruct (BuildSenderSession _ _ _ _ _ _ _) as [r l]. constructor.
  - exact HD.
  - constructor.
Qed.
Print Assumptions C160_conversation_is_presented.

(* Example: A writes twice, B gets the second first (sealed), answers, A gets the answer, B gets the first late and the second again *)
Definition ex_ac (x : side) : account :=
  match x with
  | SA => mkAccount na (Some (rb 7)) (repeat 1 52) (fun n => match n with O => rb 77 | _ => rb 88 end)
  | SB => mkAccount nb None (repeat 2 52) (fun n => rb 5)
  end.
Definition ex_begin : net := begin_net ex_setup (fun _ _ => None) (fun _ _ => None).
Definition seal (sk p : bytes) : bytes :=
  match Encrypt toy (firstn 32 sk) (repeat 3 16) p with
  | Ok c => let b := 1 :: repeat 3 16 ++ c in b ++ firstn 10 (hmac toy (skipn 32 sk) b) | _ => [] end.
Definition ex_body (r : list (side * request)) (j : nat) : bytes :=
  match nth_error r j with
  | Some (x, mkReq _ ts [jm]) =>
      match dec64 (j_content jm) with
      | Ok b => env_bytes (mkEnv (Some (env_type (j_type jm))) (Some (ac_name (ex_ac x))) (Some 1) None (Some ts) (Some b) (Some 99))
      | _ => [] end
  | _ => []
  end.
Definition t1 := UText SA [104; 105] 0 1000.
Definition t2 := UText SA [] 60 2000.
Definition t3 := UText SB [111; 107] 0 3000.
Definition ex_relay2 := Eval vm_compute in nt_relay (urun toy ex_setup ex_ac ex_begin [t1; t2]).
Definition body0 := Eval vm_compute in ex_body ex_relay2 0.
Definition body1 := Eval vm_compute in seal (repeat 2 52) (ex_body ex_relay2 1).
Definition fr n body id := mkFrame (request_frame [80; 85; 84] [47] body id) (ex_outside no_fetch) (fun _ => rb n) (fun _ => rb n).
Definition f1 := Eval vm_compute in fr 101 body1 501.
Definition ex_relay3 := Eval vm_compute in nt_relay (urun toy ex_setup ex_ac ex_begin [t1; t2; UFrame 1 f1; t3]).
Definition body2 := Eval vm_compute in ex_body ex_relay3 2.
Definition f2 := Eval vm_compute in fr 102 body2 502.
Definition f0 := Eval vm_compute in fr 103 body0 503.
Definition f1' := Eval vm_compute in fr 104 body1 504.
Definition ex_whole := [t1; t2; UFrame 1 f1; t3; UFrame 2 f2; UFrame 0 f0; UFrame 1 f1'].

Lemma ex_plain y j f id x ts dest ty dev reg content b body : nth_error (nt_relay y) j = Some (x, mkReq dest ts [mkJ ty dev reg content]) ->
  dec64 content = Ok b -> fr_bytes f = request_frame [80; 85; 84] [47] body id ->
  body = env_bytes (mkEnv (Some (env_type ty)) (Some (ac_name (ex_ac x))) (Some 1) None (Some ts) (Some b) (Some 99)) ->
  (let sk := ac_skey (ex_ac (other x)) in let n := Z.to_nat (zlen body - 10) in (10 <=? zlen body) && (32 <=? zlen sk) &&
     negb (beq (firstn 10 (hmac toy (skipn 32 sk) (firstn n body))) (skipn n body)) = true) ->
  u64 id -> (zlen (fr_bytes f) <? 2 ^ 62) = true -> carries toy ex_ac y j f id.
Proof.
  intros H1 H2 H3 H4 H5 H6 H7. exists x, (mkReq dest ts [mkJ ty dev reg content]), (mkJ ty dev reg content), b, 99, [80; 85; 84], [47], body.
  split; [exact H1|]. split; [reflexivity|]. split; [exact H2|]. cbn [j_type q_ts]. rewrite <- H4. split; [right|split; [exact H3|]].
  - cbv zeta in H5. rewrite !andb_true_iff, !Z.leb_le, negb_true_iff in H5. destruct H5 as [[A B] D]. split; [reflexivity|]. split; [exact A|]. split; [exact B|].
    apply beq_neq. exact D.
  - split; [exact H6|]. split; [unfold u64; lia|]. apply Z.ltb_lt. exact H7.
Qed.
Lemma ex_seal y j f id x ts dest ty dev reg content b c body : nth_error (nt_relay y) j = Some (x, mkReq dest ts [mkJ ty dev reg content]) ->
  dec64 content = Ok b -> fr_bytes f = request_frame [80; 85; 84] [47] body id ->
  let sk := ac_skey (ex_ac (other x)) in
  Encrypt toy (firstn 32 sk) (repeat 3 16) (env_bytes (mkEnv (Some (env_type ty)) (Some (ac_name (ex_ac x))) (Some 1) None (Some ts) (Some b) (Some 99))) = Ok c ->
  body = (1 :: repeat 3 16 ++ c) ++ firstn 10 (hmac toy (skipn 32 sk) (1 :: repeat 3 16 ++ c)) ->
  u64 id -> (zlen (fr_bytes f) <? 2 ^ 62) = true -> carries toy ex_ac y j f id.
Proof.
  intros H1 H2 H3 sk H4 H5 H6 H7. exists x, (mkReq dest ts [mkJ ty dev reg content]), (mkJ ty dev reg content), b, 99, [80; 85; 84], [47], body.
  split; [exact H1|]. split; [reflexivity|]. split; [exact H2|]. cbn [j_type q_ts]. split; [left|split; [exact H3|]].
  - exists 1, (repeat 3 16), c. split; [unfold sk; destruct x; reflexivity|]. split; [reflexivity|]. split; [apply wfbb_ok; reflexivity|]. split; [exact H4|exact H5].
  - split; [exact H6|]. split; [unfold u64; lia|]. apply Z.ltb_lt. exact H7.
Qed.
Ltac vmr := vm_compute; reflexivity.
Ltac ex_text := split; [cbn; congruence|split; [apply wfbb_ok; reflexivity|split; [unfold u32; lia|split; [unfold u64; lia|vmr]]]].
Example C160_example :
  setup_ok toy ex_setup /\ accounts_ok ex_setup ex_ac /\ good_schedule toy ex_setup (map (abstract ex_ac) ex_whole) /\
  feasible toy ex_setup ex_ac ex_begin spec0 ex_whole /\
  (* the calls at B and at A *)
  nt_calls (urun toy ex_setup ex_ac ex_begin ex_whole) SB
    = [presented ex_ac (SA, [], 60, 2000); presented ex_ac (SA, [104; 105], 0, 1000)] /\
  nt_calls (urun toy ex_setup ex_ac ex_begin ex_whole) SA = [presented ex_ac (SB, [111; 107], 0, 3000)].
Proof.
  split; [exact ex_setup_ok|]. split.
  { constructor.
    - intros []; reflexivity.
    - intros []; reflexivity.
    - intros []; apply wfbb_ok; reflexivity.
    - intros []; [apply wfbb_ok; reflexivity|exact Logic.I].
    - split; [apply wfbb_ok; vmr|vmr].
    - reflexivity.
    - split; reflexivity. }
  split; [split; [vmr|apply nodupb_ok; vmr]|].
  split; [|split; vmr].
  unfold ex_whole. cbn [feasible].
  split; [ex_text|]. split; [ex_text|].
  split; [split; [reflexivity|]; split; [exists 501; eapply ex_seal with (body := body1); [vmr|vmr|vmr|vmr|vmr|unfold u64; lia|vmr]|left; vmr]|].
  split; [split; [vm_compute; intros X; discriminate X|split; [apply wfbb_ok; reflexivity|split; [unfold u32; lia|split; [unfold u64; lia|vmr]]]]|].
  split; [split; [reflexivity|]; split; [exists 502; eapply ex_plain with (body := body2); [vmr|vmr|vmr|vmr|vmr|unfold u64; lia|vmr]|left; vmr]|].
  split; [split; [reflexivity|]; split; [exists 503; eapply ex_plain with (body := body0); [vmr|vmr|vmr|vmr|vmr|unfold u64; lia|vmr]|left; vmr]|].
  split; [split; [reflexivity|]; split; [exists 504; eapply ex_seal with (body := body1); [vmr|vmr|vmr|vmr|vmr|unfold u64; lia|vmr]|right; split; [exact ex_no_history|vmr]]|].
  exact Logic.I.
Qed.
