(* C170: any number of conversations at once. *)
From Coq Require Import ZArith List Lia Bool.
From Verif Require Import Bytes Res Wire WireProofs Crypto Cbc Messages Session Builder Conversation ConversationProofs Examples
  PropHistory PropConversation.
Import ListNotations.
Open Scope Z_scope.

(* ------------------------------------------------------------------------------------------ *)
(* Devices are numbered. A conversation is held by two of them; each stores the other under a name
   and device number. The keys are those of Conversation.setup, which is the case of two devices. *)
Record link : Type := mkLink {
  k_node : side -> nat;
  k_peer : side -> bytes * Z;
  k_spk : bytes; k_spkid : Z; k_otk : option bytes; k_pkid : Z; k_sig : bytes;
  k_rbase : bytes; k_rratchet : bytes }.

(* the start of a conversation, given what the devices have stored at that moment *)
Definition setup_of (l : link) (W : nat -> world) : setup :=
  mkSetup (k_peer l) (fun x => W (k_node l x)) (k_spk l) (k_spkid l) (k_otk l) (k_pkid l) (k_sig l) (k_rbase l) (k_rratchet l).

Record network : Type := mkNet { n_w : nat -> world; n_mail : nat -> list (side * mtype * bytes) }.

Inductive naction : Type :=
| NStart (i : nat)                      (* conversation i begins: its side A builds a session from the bundle of side B *)
| NAct (i : nat) (a : action).          (* a step of conversation i *)

Section N.
Variable C : crypto.
Variable L : nat -> link.       (* the conversations: those numbered below K *)
Variable K : nat.

Definition set_node {A} (f : nat -> A) (n : nat) (v : A) : nat -> A := fun m => if Nat.eqb n m then v else f m.
(* what conversation i sees of the network *)
Definition view (N : network) (i : nat) : sys := mkSys (fun x => n_w N (k_node (L i) x)) (n_mail N i).

Definition nstep (N : network) (a : naction) : network :=
  match a with
  | NStart i =>
      let st := setup_of (L i) (n_w N) in
      let (_, l) := BuildSenderSession C (st_w st SA) (fst (k_peer (L i) SA)) (snd (k_peer (L i) SA)) (the_bundle C st) (k_rbase (L i)) (k_rratchet (L i)) in
      mkNet (set_node (n_w N) (k_node (L i) SA) (apply_effs (n_w N (k_node (L i) SA)) l)) (set_node (n_mail N) i [])
  | NAct i a =>
      let '(x, r, l) := perform C (k_peer (L i)) (view N i) a in
      mkNet (set_node (n_w N) (k_node (L i) x) (apply_effs (n_w N (k_node (L i) x)) l))
            (set_node (n_mail N) i (y_net (step C (k_peer (L i)) (view N i) a)))
  end.

(* what is expected: every conversation has its own specification, that of Conversation.v *)
Definition nspec : Type := nat -> option (setup * spec).
Definition nspec_step (N : network) (S : nspec) (a : naction) : nspec :=
  match a with
  | NStart i => set_node S i (Some (setup_of (L i) (n_w N), spec0))
  | NAct i a => match S i with
                | Some (st, sp) => set_node S i (Some (st, spec_step sp a))
                | None => S
                end
  end.

(* a conversation begins once; each of its steps is as in Conversation.assumed *)
Definition nassumed (N : network) (S : nspec) (a : naction) : Prop :=
  match a with
  | NStart i => (i < K)%nat /\ S i = None
  | NAct i a => match S i with
                | Some (st, sp) => assumed C st (view N i) sp a
                | None => False
                end
  end.
Fixpoint nadmissible (N : network) (S : nspec) (acts : list naction) : Prop :=
  match acts with
  | [] => True
  | a :: t => nassumed N S a /\ nadmissible (nstep N a) (nspec_step N S a) t
  end.
Definition nrun (N : network) (S : nspec) (acts : list naction) : network * nspec :=
  fold_left (fun p a => (nstep (fst p) a, nspec_step (fst p) (snd p) a)) acts (N, S).

Definition nexpected (N : network) (S : nspec) (a : naction) : Prop :=
  match a with
  | NStart i =>
      let st := setup_of (L i) (n_w N) in
      fst (BuildSenderSession C (st_w st SA) (fst (k_peer (L i) SA)) (snd (k_peer (L i) SA)) (the_bundle C st) (k_rbase (L i)) (k_rratchet (L i))) = Ok tt
  | NAct i a => match S i with
                | Some (st, sp) => expected C st (view N i) sp a
                | None => False
                end
  end.

(* the steps of conversation i *)
Definition proj (i : nat) (acts : list naction) : list action :=
  flat_map (fun a => match a with NAct j b => if Nat.eqb i j then [b] else [] | NStart _ => [] end) acts.

(* The conversations are of different devices, or at least with different ones: no device holds two
   conversations with the same name and device number, and names that are the same (two devices of
   one account) have the same identity key. A one-time prekey is handed out once, but for the last
   resort. *)
Record links_ok (W : nat -> world) : Prop := {
  lo_apart : forall i, (i < K)%nat -> k_node (L i) SA <> k_node (L i) SB;
  lo_peers : forall i j x z, (i < K)%nat -> (j < K)%nat -> i <> j -> k_node (L i) x = k_node (L j) z -> k_peer (L i) x <> k_peer (L j) z;
  lo_names : forall i j x z, (i < K)%nat -> (j < K)%nat -> i <> j -> k_node (L i) x = k_node (L j) z -> fst (k_peer (L i) x) = fst (k_peer (L j) z) ->
    snd (w_ident (W (k_node (L i) (other x)))) = snd (w_ident (W (k_node (L j) (other z))));
  lo_once : forall i j, (i < K)%nat -> (j < K)%nat -> i <> j -> k_node (L i) SB = k_node (L j) SB -> k_pkid (L i) = k_pkid (L j) ->
    k_pkid (L i) = 0 \/ k_pkid (L i) = 16777215 }.
End N.

(* ------------------------------------------------------------------------------------------ *)
Section P.
Variable C : crypto.
Hypothesis OK : crypto_ok C.

(* the writes of a step are about its own conversation *)
Definition own (st : setup) (x : side) (e : eff) : Prop :=
  match e with
  | EStoreSession r d _ _ => r = fst (st_peer st x) /\ d = snd (st_peer st x)
  | ERemovePreKey id => id = 0 \/ (x = SB /\ id = st_pkid st /\ id <> 16777215)
  | ESaveIdentity r k => r = fst (st_peer st x) /\ k = idpub st (other x)
  end.

Lemma send_own st w x pt r l : SessionEncryptMessage C w (fst (st_peer st x)) (snd (st_peer st x)) pt = (r, l) -> Forall (own st x) l.
Proof.
  unfold SessionEncryptMessage. destruct (ss_encrypt _ _ _) as [[[msg ty] s]|e|]; intros H; injection H as <- <-; constructor.
  - split; reflexivity.
  - constructor.
Qed.

Lemma whisper_own st w x m rnd r l :
  SessionDecryptWhisperMessage C w (fst (st_peer st x)) (snd (st_peer st x)) m rnd = (r, l) -> Forall (own st x) l.
Proof.
  unfold SessionDecryptWhisperMessage. destruct (sc_decrypt _ _ _ _) as [[pt|e|] r']; intros H; injection H as <- <-; constructor.
  - split; reflexivity.
  - constructor.
Qed.

Lemma prekey_own st w m rnd r l : pk_ident m = idpub st SA -> pk_pkid m = st_pkid st ->
  SessionDecryptPreKeyWhisperMessage C w (fst (st_peer st SB)) (snd (st_peer st SB)) m rnd = (r, l) -> Forall (own st SB) l.
Proof.
  intros Hi Hp. unfold SessionDecryptPreKeyWhisperMessage.
  destruct (BuildReceiverSession C w (fst (st_peer st SB)) (LoadSession w (fst (st_peer st SB)) (snd (st_peer st SB))) m) as [b l0] eqn:EB.
  assert (HB : Forall (own st SB) l0 /\ forall pkid r1, b = Ok (pkid, r1) -> pkid = 0 \/ pkid = st_pkid st).
  { unfold BuildReceiverSession in EB.
    destruct (negb (pk_version m =? currentVersion)); [injection EB as <- <-; split; [constructor|discriminate]|].
    destruct (negb (IsTrustedIdentity _ _ _)); [injection EB as <- <-; split; [constructor|discriminate]|].
    destruct (hasSessionState _ _ _); [injection EB as <- <-; split; [constructor|intros pkid r1 E; injection E as <- _; auto]|].
    match type of EB with (match ?s with _ => _ end = _) => destruct s as [v|e|] eqn:ES end; injection EB as <- <-.
    - split; [constructor; [split; [reflexivity|exact Hi]|constructor]|]. intros pkid r1 E. injection E as ->. right.
      destruct (of_option ENotFound (w_spk w (pk_spkid m))) as [spk|e|]; cbn [bind] in ES; try discriminate ES.
      destruct (load_kp spk) as [spk'|e|]; cbn [bind] in ES; try discriminate ES.
      destruct (pk_pkid m =? 0); cbn [bind] in ES; [injection ES as E1 _; congruence|].
      destruct (of_option EPreKeyNotFound (w_pre w (pk_pkid m))) as [kp|e|]; cbn [bind] in ES; try discriminate ES.
      destruct (load_kp kp) as [kp'|e|]; cbn [bind] in ES; try discriminate ES. injection ES as E1 _. congruence.
    - split; [constructor|discriminate].
    - split; [constructor|discriminate]. }
  destruct HB as [HF HP]. destruct b as [[pkid r1]|e|]; [|intros H; injection H as <- <-; exact HF|intros H; injection H as <- <-; exact HF].
  destruct (sc_decrypt C r1 (pk_msg m) rnd) as [[pt|e|] r']; intros H; injection H as <- <-; [|exact HF|exact HF].
  apply Forall_app. split; [exact HF|]. apply Forall_app. split; [|constructor; [split; reflexivity|constructor]].
  destruct (Z.eqb_spec pkid 16777215) as [E|E]; [constructor|]. constructor; [|constructor]. cbn [own].
  destruct (HP _ _ eq_refl) as [->| ->]; auto.
Qed.

Section S.
Variable st : setup.
Hypothesis SO : setup_ok C st.

Lemma step_own eps y sp a acts x r l : Inv C st eps y sp (a :: acts) -> assumed C st y sp a ->
  perform C (st_peer st) y a = (x, r, l) -> Forall (own st x) l.
Proof.
  intros IV HA HP. destruct a as [z pt|j rnd|z ty b rnd].
  - cbn [perform] in HP. destruct (SessionEncryptMessage _ _ _ _ _) as [r0 l0] eqn:E. injection HP as <- _ <-. exact (send_own _ _ _ _ _ _ E).
  - cbn [assumed] in HA. destruct HA as [_ HA].
    assert (R : refused C st y (Deliver j rnd) -> Forall (own st x) l).
    { unfold refused. rewrite HP. intros [_ F]. apply Forall_forall. intros e He. rewrite Forall_forall in F. rewrite (F e He). split; reflexivity. }
    assert (G : forall m, nth_error (sp_sent sp) j = Some m -> Forall (own st x) l).
    { intros m Hm. pose proof (iv_spec _ _ _ _ _ _ IV) as K. destruct (sk_sent _ K _ _ Hm) as (A1 & A2 & A3 & A4 & A5 & A6).
      destruct (Forall2_nth _ _ _ _ _ (iv_net _ _ _ _ _ _ IV) Hm) as ([[f ty] b] & Hnet & Hmsg).
      pose proof (iv_size _ _ _ _ _ _ IV) as Hsz. cbn [length] in Hsz.
      cbn [perform] in HP. rewrite Hnet in HP.
      destruct (receive C (y_w y (other f)) (fst (st_peer st (other f))) (snd (st_peer st (other f))) ty b rnd) as [r0 l0] eqn:E.
      injection HP as <- _ <-. destruct Hmsg as (Hf & prev & Hp & Hb). cbv zeta in Hb. destruct ty.
      - destruct Hb as [_ Hb]. unfold receive in E. destruct (LoadWhisperMessage b) as [wm|e|].
        + exact (whisper_own _ _ _ _ _ _ _ E).
        + injection E as <- <-. constructor.
        + injection E as <- <-. constructor.
      - destruct Hb as (EF & E1 & ->). rewrite EF in *. cbn [other] in *. unfold receive in E.
        rewrite (pre_msg_load C OK st SO) in E; auto; [|lia].
        apply (prekey_own st _ _ _ _ _) in E; [exact E|reflexivity|reflexivity]. }
    destruct HA as [Hd|[[_ Hr]|Hr]]; auto.
    + unfold deliverable in Hd. destruct (nth_error (sp_sent sp) j) as [m|] eqn:Em; [|discriminate]. exact (G m eq_refl).
    + unfold repeated in Hr. destruct (nth_error (sp_sent sp) j) as [m|] eqn:Em; [|discriminate]. exact (G m eq_refl).
  - cbn [assumed] in HA. unfold refused in HA. rewrite HP in HA. destruct HA as [_ F]. apply Forall_forall. intros e He.
    rewrite Forall_forall in F. rewrite (F e He). split; reflexivity.
Qed.
End S.

(* ------------------------------------------------------------------------------------------ *)
(* what a conversation needs of a device is not touched by the writes of another conversation *)
Record same_for (st : setup) (z : side) (w w' : world) : Prop := {
  sf_ident : w_ident w' = w_ident w;
  sf_reg : w_reg w' = w_reg w;
  sf_spk : w_spk w' = w_spk w;
  sf_sess : w_sess w' (fst (st_peer st z)) (snd (st_peer st z)) = w_sess w (fst (st_peer st z)) (snd (st_peer st z));
  sf_trust : IsTrustedIdentity w (fst (st_peer st z)) (idpub st (other z)) = true -> IsTrustedIdentity w' (fst (st_peer st z)) (idpub st (other z)) = true;
  sf_pre : z = SB -> st_pkid st <> 0 -> w_pre w' (st_pkid st) = w_pre w (st_pkid st) }.

Lemma same_refl st z w : same_for st z w w.
Proof. constructor; auto. Qed.
Lemma same_trans st z w1 w2 w3 : same_for st z w1 w2 -> same_for st z w2 w3 -> same_for st z w1 w3.
Proof. intros [A1 A2 A3 A4 A5 A6] [B1 B2 B3 B4 B5 B6]. constructor; try congruence; auto. intros E F. rewrite B6, A6; auto. Qed.

Lemma same_eff sti x stj z w e : own sti x e -> st_peer sti x <> st_peer stj z ->
  (fst (st_peer sti x) = fst (st_peer stj z) -> idpub sti (other x) = idpub stj (other z)) ->
  (x = SB -> z = SB -> st_pkid sti = st_pkid stj -> st_pkid sti = 0 \/ st_pkid sti = 16777215) ->
  same_for stj z w (apply_eff w e).
Proof.
  intros He HP HI HO. destruct e as [r d c p|id|r k]; cbn [own apply_eff] in *; constructor; cbn [set_sess set_pre set_id w_ident w_reg w_spk w_sess w_pre]; auto.
  - destruct He as [-> ->]. destruct (beq (fst (st_peer stj z)) (fst (st_peer sti x))) eqn:E1; [|reflexivity].
    destruct (snd (st_peer stj z) =? snd (st_peer sti x)) eqn:E2; [|reflexivity]. apply beq_eq in E1. apply Z.eqb_eq in E2.
    elim HP. rewrite (surjective_pairing (st_peer sti x)), (surjective_pairing (st_peer stj z)). now rewrite E1, E2.
  - intros Hz Hn. destruct (Z.eqb_spec (st_pkid stj) id) as [E|E]; [|reflexivity]. destruct He as [H0|(Hx & Hid & Hl)]; [congruence|].
    destruct (HO Hx Hz) as [F|F]; congruence.
  - destruct He as [-> ->]. unfold IsTrustedIdentity. cbn [set_id w_trust_all w_ids]. destruct (w_trust_all w); [reflexivity|]. cbn [orb].
    destruct (beq (fst (st_peer stj z)) (fst (st_peer sti x))) eqn:E1; [|auto]. apply beq_eq in E1. intros _. rewrite HI by congruence. apply beq_refl.
Qed.
Lemma same_effs sti x stj z l : Forall (own sti x) l -> st_peer sti x <> st_peer stj z ->
  (fst (st_peer sti x) = fst (st_peer stj z) -> idpub sti (other x) = idpub stj (other z)) ->
  (x = SB -> z = SB -> st_pkid sti = st_pkid stj -> st_pkid sti = 0 \/ st_pkid sti = 16777215) ->
  forall w, same_for stj z w (apply_effs w l).
Proof.
  intros F HP HI HO. induction F as [|e l He F IH]; intros w; cbn [apply_effs fold_left]; [apply same_refl|].
  eapply same_trans; [apply (same_eff sti x stj z w e); auto|apply IH].
Qed.

Lemma inv_frame st eps y y2 sp acts : Inv C st eps y sp acts -> y_net y2 = y_net y ->
  (forall z, same_for st z (y_w y z) (y_w y2 z)) -> Inv C st eps y2 sp acts.
Proof.
  intros [I1 I2 I3 I4 I5 I6 I7 I8] En SF. constructor; rewrite ?En; auto.
  - intros z. destruct (I4 z) as [W1 W2 W3 W4], (SF z) as [A1 A2 A3 A4 A5 A6]. constructor; try congruence. apply A5, W3.
  - intros z. specialize (I5 z). destruct (SF z) as [A1 A2 A3 A4 A5 A6]. unfold sess_ok, rid, dev in *.
    rewrite A4. destruct (sp_epoch sp z) as [|n] eqn:E; [|exact I5]. destruct I5 as [H1 H2]. split; [exact H1|].
    intros Hn. pose proof (sk_own _ I3 z) as Ho. rewrite E in Ho. rewrite A6; auto.
Qed.

Lemma setup_frame l W W' : setup_ok C (setup_of l W) ->
  (forall z, same_for (setup_of l W) z (W (k_node l z)) (W' (k_node l z))) -> setup_ok C (setup_of l W').
Proof.
  intros [S1 S2 S3 S4 S5 S6 S7 S8 S9 S10] SF.
  assert (ID : forall z, w_ident (W' (k_node l z)) = w_ident (W (k_node l z))) by (intros z; apply (sf_ident _ _ _ _ (SF z))).
  assert (IP : forall z, idpub (setup_of l W') z = idpub (setup_of l W) z) by (intros z; unfold idpub; cbn [st_w setup_of]; now rewrite ID).
  constructor.
  - intros x. rewrite IP. unfold idpriv. cbn [st_w setup_of]. rewrite ID. apply (S1 x).
  - intros x. cbn [st_w setup_of]. rewrite (sf_reg _ _ _ _ (SF x)). apply (S2 x).
  - intros x. rewrite IP. cbn [st_w st_peer setup_of]. apply (sf_trust _ _ _ _ (SF x)). apply (S3 x).
  - cbn [st_w st_spkid st_spk setup_of]. rewrite (sf_spk _ _ _ _ (SF SB)). exact S4.
  - exact S5.
  - exact S6.
  - cbn [st_otk st_pkid st_w setup_of] in *. destruct (k_otk l) as [k|]; [|exact S7]. destruct S7 as (H1 & H2 & H3). split; [exact H1|].
    split; [exact H2|]. pose proof (sf_pre _ _ _ _ (SF SB) eq_refl) as HP. cbn [st_pkid setup_of] in HP. rewrite HP by lia. exact H3.
  - rewrite IP. exact S8.
  - exact S9.
  - cbn [st_w st_peer setup_of] in *. unfold LoadSession in *.
    pose proof (sf_sess _ _ _ _ (SF SB)) as HS. cbn [st_peer setup_of] in HS. rewrite HS. exact S10.
Qed.

(* ------------------------------------------------------------------------------------------ *)
Variable L : nat -> link.
Variable K : nat.
Variable W0 : nat -> world.
Hypothesis LO : links_ok L K W0.

Definition same_people (W : nat -> world) : Prop := forall n, w_ident (W n) = w_ident (W0 n).

Record NInv (N : network) (S : nspec) (acts : list naction) : Prop := {
  ni_ident : same_people (n_w N);
  ni_bound : forall i p, S i = Some p -> (i < K)%nat;
  ni_started : forall i st sp, S i = Some (st, sp) -> exists W, st = setup_of (L i) W /\ same_people W /\ setup_ok C st /\
    exists eps, Inv C st eps (view L N i) sp (proj i acts);
  ni_not : forall i, (i < K)%nat -> S i = None ->
    setup_ok C (setup_of (L i) (n_w N)) /\ good_schedule C (setup_of (L i) (n_w N)) (proj i acts) }.

Lemma set_same {A} (f : nat -> A) n v : set_node f n v n = v.
Proof. unfold set_node. now rewrite Nat.eqb_refl. Qed.
Lemma set_other {A} (f : nat -> A) n v m : n <> m -> set_node f n v m = f m.
Proof. unfold set_node. intros H. destruct (Nat.eqb_spec n m); congruence. Qed.

Lemma ident_effs w l : w_ident (apply_effs w l) = w_ident w.
Proof. revert w. induction l as [|e l IH]; intros w; [reflexivity|]. cbn [apply_effs fold_left]. fold (apply_effs (apply_eff w e) l). rewrite IH. now destruct e. Qed.

(* the other conversations *)
Lemma others N i x l Wi Wj j z : (i < K)%nat -> (j < K)%nat -> i <> j -> same_people Wi -> same_people Wj ->
  Forall (own (setup_of (L i) Wi) x) l ->
  same_for (setup_of (L j) Wj) z (n_w N (k_node (L j) z))
    (set_node (n_w N) (k_node (L i) x) (apply_effs (n_w N (k_node (L i) x)) l) (k_node (L j) z)).
Proof.
  intros Hi Hj Hij Pi Pj F. destruct (Nat.eq_dec (k_node (L i) x) (k_node (L j) z)) as [E|E]; [|rewrite set_other by assumption; apply same_refl].
  rewrite <- E, set_same. apply (same_effs (setup_of (L i) Wi) x); [exact F|..]; cbn [st_peer setup_of].
  - apply (lo_peers _ _ _ LO); assumption.
  - intros En. unfold idpub. cbn [st_w setup_of]. rewrite Pi, Pj. apply (lo_names _ _ _ LO); assumption.
  - intros -> -> Ep. cbn [st_pkid setup_of] in *. apply (lo_once _ _ _ LO i j); assumption.
Qed.

Lemma step_others N N' S S' i a acts x l Wi : NInv N S (a :: acts) -> (i < K)%nat -> same_people Wi ->
  Forall (own (setup_of (L i) Wi) x) l ->
  n_w N' = set_node (n_w N) (k_node (L i) x) (apply_effs (n_w N (k_node (L i) x)) l) ->
  (forall j, j <> i -> S' j = S j) -> (forall j, j <> i -> n_mail N' j = n_mail N j) ->
  (forall j, j <> i -> proj j (a :: acts) = proj j acts) ->
  same_people (n_w N') /\ forall j, j <> i ->
    (forall st sp, S' j = Some (st, sp) -> exists W, st = setup_of (L j) W /\ same_people W /\ setup_ok C st /\
       exists eps, Inv C st eps (view L N' j) sp (proj j acts)) /\
    ((j < K)%nat -> S' j = None -> setup_ok C (setup_of (L j) (n_w N')) /\ good_schedule C (setup_of (L j) (n_w N')) (proj j acts)).
Proof.
  intros NI Hi Pi F EW ES EM EP.
  assert (SP : same_people (n_w N')).
  { intros n. rewrite EW. unfold set_node. destruct (Nat.eqb_spec (k_node (L i) x) n) as [<-|_]; [rewrite ident_effs|]; apply (ni_ident _ _ _ NI). }
  split; [exact SP|]. intros j Hj. split.
  - intros st sp H. rewrite ES in H by assumption. pose proof (ni_bound _ _ _ NI _ _ H) as HjK.
    destruct (ni_started _ _ _ NI _ _ _ H) as (W & -> & PW & SO & eps & IV). exists W. split; [reflexivity|]. split; [exact PW|]. split; [exact SO|].
    exists eps. rewrite EP in IV by assumption. eapply inv_frame; [exact IV|cbn [view y_net]; now apply EM|].
    intros z. cbn [view y_w]. rewrite EW. apply (others N i x l Wi); auto.
  - intros HjK H. rewrite ES in H by assumption. destruct (ni_not _ _ _ NI _ HjK H) as [SO GS]. rewrite EP in GS by assumption. split; [|exact GS].
    eapply setup_frame; [exact SO|]. intros z. rewrite EW. apply (others N i x l Wi); auto. exact (ni_ident _ _ _ NI).
Qed.

Lemma start_own W l r : BuildSenderSession C (st_w W SA) (fst (st_peer W SA)) (snd (st_peer W SA)) (the_bundle C W) (st_rbase W) (st_rratchet W) = (r, l) ->
  Forall (own W SA) l.
Proof.
  unfold BuildSenderSession. destruct (negb _); [intros H; injection H as <- <-; constructor|].
  cbn [the_bundle b_spk]. destruct (negb (sigok _ _ _ _)); [intros H; injection H as <- <-; constructor|].
  intros H. injection H as <- <-. constructor; [split; reflexivity|]. constructor; [split; reflexivity|constructor].
Qed.

Lemma start_ok st : setup_ok C st ->
  fst (BuildSenderSession C (st_w st SA) (fst (st_peer st SA)) (snd (st_peer st SA)) (the_bundle C st) (st_rbase st) (st_rratchet st)) = Ok tt.
Proof.
  intros SO. unfold BuildSenderSession. change (b_ident (the_bundle C st)) with (idpub st SB).
  pose proof (so_trust _ _ SO SA) as T. cbn [other] in T. rewrite T. cbn [negb the_bundle b_spk b_sig b_ident]. rewrite (so_sig _ _ SO). reflexivity.
Qed.

Lemma nstep_ok N S a acts : NInv N S (a :: acts) -> nassumed C L K N S a ->
  nexpected C L N S a /\ NInv (nstep C L N a) (nspec_step L N S a) acts.
Proof.
  intros NI HA. destruct a as [i|i b].
  - cbn [nassumed] in HA. destruct HA as [Hi HS]. destruct (ni_not _ _ _ NI i Hi HS) as [SO GS].
    set (st := setup_of (L i) (n_w N)) in *. split; [exact (start_ok st SO)|].
    cbn [nstep nspec_step]. fold st.
    destruct (BuildSenderSession C (st_w st SA) (fst (k_peer (L i) SA)) (snd (k_peer (L i) SA)) (the_bundle C st) (k_rbase (L i)) (k_rratchet (L i))) as [r l] eqn:EB.
    pose proof (start_own st l r EB) as FO.
    set (N' := mkNet _ _). set (S' := set_node S i _).
    destruct (step_others N N' S S' i (NStart i) acts SA l (n_w N) NI Hi (ni_ident _ _ _ NI) FO eq_refl) as [SP OT].
    { intros j Hj. apply set_other. congruence. }
    { intros j Hj. apply set_other. congruence. }
    { intros j Hj. reflexivity. }
    constructor.
    + exact SP.
    + intros j p H. destruct (Nat.eq_dec j i) as [->|Hj]; [exact Hi|]. unfold S' in H. rewrite set_other in H by congruence. exact (ni_bound _ _ _ NI _ _ H).
    + intros j st' sp H. destruct (Nat.eq_dec j i) as [->|Hj]; [|apply (OT j Hj); exact H].
      unfold S' in H. rewrite set_same in H. injection H as <- <-. exists (n_w N). split; [reflexivity|]. split; [exact (ni_ident _ _ _ NI)|]. split; [exact SO|].
      change (proj i (NStart i :: acts)) with (proj i acts) in GS. destruct (start_inv C OK st SO _ GS) as (eps & IV). exists eps.
      eapply inv_frame; [exact IV|..].
      * unfold N'. cbn [view y_net n_mail]. rewrite set_same. unfold start. destruct (BuildSenderSession C (st_w st SA) _ _ _ _ _). reflexivity.
      * intros z. assert (E : y_w (start C st) z = n_w N' (k_node (L i) z)).
        { unfold start. change (st_peer st SA) with (k_peer (L i) SA). change (st_rbase st) with (k_rbase (L i)). change (st_rratchet st) with (k_rratchet (L i)).
          rewrite EB. cbn [y_w]. unfold N'. cbn [n_w]. destruct z; cbn [upd_side side_eqb].
          - now rewrite set_same.
          - rewrite set_other by (apply (lo_apart _ _ _ LO i Hi)). reflexivity. }
        cbn [view y_w]. rewrite <- E. apply same_refl.
    + intros j Hj H. destruct (Nat.eq_dec j i) as [->|Hji]; [unfold S' in H; rewrite set_same in H; discriminate H|]. apply (OT j Hji); assumption.
  - cbn [nassumed] in HA. destruct (S i) as [[st sp]|] eqn:HS; [|destruct HA].
    pose proof (ni_bound _ _ _ NI _ _ HS) as Hi.
    destruct (ni_started _ _ _ NI _ _ _ HS) as (W & Est & PW & SO & eps & IV).
    assert (EP : proj i (NAct i b :: acts) = b :: proj i acts) by (unfold proj; cbn [flat_map]; now rewrite Nat.eqb_refl).
    rewrite EP in IV. destruct (any_step C OK st SO _ _ _ _ _ IV HA) as [EX (eps' & IV')].
    split; [cbn [nexpected]; rewrite HS; exact EX|].
    cbn [nstep nspec_step]. rewrite HS.
    assert (EPeer : k_peer (L i) = st_peer st) by (rewrite Est; reflexivity). rewrite EPeer.
    destruct (perform C (st_peer st) (view L N i) b) as [[x r] l] eqn:EPf.
    pose proof (step_own st SO _ _ _ _ _ _ _ _ IV HA EPf) as FO.
    set (N' := mkNet _ _). set (S' := set_node S i _).
    destruct (step_others N N' S S' i (NAct i b) acts x l W NI Hi PW) as [SP OT].
    { rewrite Est in FO. exact FO. }
    { reflexivity. }
    { intros j Hj. apply set_other. congruence. }
    { intros j Hj. apply set_other. congruence. }
    { intros j Hj. unfold proj. cbn [flat_map]. destruct (Nat.eqb_spec j i); [congruence|reflexivity]. }
    constructor.
    + exact SP.
    + intros j p H. destruct (Nat.eq_dec j i) as [->|Hj]; [exact Hi|]. unfold S' in H. rewrite set_other in H by congruence. exact (ni_bound _ _ _ NI _ _ H).
    + intros j st' sp' H. destruct (Nat.eq_dec j i) as [->|Hj]; [|apply (OT j Hj); exact H].
      unfold S' in H. rewrite set_same in H. injection H as <- <-. exists W. split; [exact Est|]. split; [exact PW|]. split; [exact SO|].
      exists eps'. eapply inv_frame; [exact IV'|..].
      * unfold N'. cbn [view y_net n_mail]. now rewrite set_same.
      * intros z. assert (E : y_w (step C (st_peer st) (view L N i) b) z = n_w N' (k_node (L i) z)).
        { unfold step. rewrite EPf. cbn [y_w]. unfold N', upd_side. cbn [n_w]. pose proof (lo_apart _ _ _ LO i Hi) as HA2.
          destruct x, z; cbn [side_eqb view y_w]; rewrite ?set_same; auto; rewrite set_other; auto. }
        cbn [view y_w]. rewrite <- E. apply same_refl.
    + intros j Hj H. destruct (Nat.eq_dec j i) as [->|Hji]; [unfold S' in H; rewrite set_same in H; discriminate H|]. apply (OT j Hji); assumption.
Qed.

Lemma nrun_ok : forall acts N S, NInv N S acts -> nadmissible C L K N S acts -> forall pre a post, acts = pre ++ a :: post ->
  nexpected C L (fst (nrun C L N S pre)) (snd (nrun C L N S pre)) a.
Proof.
  induction acts as [|b acts IH]; intros N S NI HA pre a post E; [destruct pre; discriminate E|].
  cbn [nadmissible] in HA. destruct HA as [H1 H2]. destruct (nstep_ok N S b acts NI H1) as [EX NI'].
  destruct pre as [|c pre]; cbn [app] in E; injection E as -> E; [exact EX|].
  exact (IH _ _ NI' H2 pre a post E).
Qed.
End P.

(* C170. Any number of devices, any number of conversations between them, begun at any time and
   interleaved in any way: every step has the outcome that it has to have for the two who are
   concerned (C02), as if they were alone. *)
Theorem C170_network : forall C, crypto_ok C -> forall L K N, links_ok L K (n_w N) ->
  (forall i, (i < K)%nat -> setup_ok C (setup_of (L i) (n_w N))) ->
  forall acts, (forall i, (i < K)%nat -> good_schedule C (setup_of (L i) (n_w N)) (proj i acts)) ->
  nadmissible C L K N (fun _ => None) acts ->
  forall pre a post, acts = pre ++ a :: post ->
  let p := nrun C L N (fun _ => None) pre in nexpected C L (fst p) (snd p) a.
Proof.
  intros C OK L K N LO SO acts GS HA pre a post E. cbv zeta. eapply nrun_ok; [exact OK|exact LO| |exact HA|exact E].
  constructor; try discriminate.
  - intros n. reflexivity.
  - intros i Hi _. split; [apply SO, Hi|apply GS, Hi].
Qed.
Print Assumptions C170_network.

(* ---- example: A with one device, B with two, C with one; A and C write to B and C writes to A ---- *)
Definition nc : bytes := [99].
Definition ex_nodes (n : nat) : world :=
  match n with
  | 0%nat => mkWorld (ex_kp 11) 1001 false (fun _ _ => None) (fun _ => None) (fun i => if i =? 1 then Some (ex_kp 34) else None) (fun _ => None)
  | 1%nat => ex_worldB
  | 2%nat => mkWorld (ex_kp 23) 1003 false (fun _ _ => None) (fun _ => None) (fun _ => None) (fun _ => None)
  | _ => mkWorld (ex_kp 22) 1004 false (fun _ _ => None) (fun _ => None) (fun i => if i =? 9 then Some (ex_kp 35) else None) (fun _ => None)
  end.
Definition ex_link (a b : nat) (pa pb : bytes * Z) (spk spkid : Z) (otk : option bytes) (pkid : Z) (rbase rratchet : Z) : link :=
  mkLink (fun x => match x with SA => a | SB => b end) (fun x => match x with SA => pa | SB => pb end) (ex_priv spk) spkid otk pkid
    (ex_sign (snd (w_ident (ex_nodes b))) (key_ser (basepub toy (ex_priv spk)))) (rb rbase) (rb rratchet).
Definition ex_links (i : nat) : link :=
  match i with
  | 0%nat => ex_link 0%nat 1%nat (nb, 1) (na, 1) 33 1 (Some (ex_priv 55)) 5 77 88
  | 1%nat => ex_link 2%nat 1%nat (nb, 1) (nc, 1) 33 1 (Some (ex_priv 66)) 6 79 89
  | 2%nat => ex_link 2%nat 0%nat (na, 1) (nc, 1) 34 1 None 0 80 90
  | _ => ex_link 0%nat 3%nat (nb, 2) (na, 1) 35 9 None 0 81 91
  end.
Definition ex_net : network := mkNet ex_nodes (fun _ => []).
Definition ex_nacts : list naction :=
  [NStart 0; NAct 0 (Send SA [1]); NStart 3; NAct 3 (Send SA [1]); NStart 1; NAct 1 (Send SA [2]); NAct 0 (Deliver 0 (fun _ => rb 101));
   NStart 2; NAct 1 (Deliver 0 (fun _ => rb 102)); NAct 2 (Send SA [3]); NAct 0 (Send SB [4]); NAct 2 (Deliver 0 (fun _ => rb 103));
   NAct 3 (Deliver 0 (fun _ => rb 104)); NAct 0 (Deliver 1 (fun _ => rb 105)); NAct 1 (Send SB [5]); NAct 1 (Deliver 1 (fun _ => rb 106))].

Definition nassumedb (K : nat) (S : nspec) (a : naction) : bool :=
  match a with
  | NStart i => (i <? K)%nat && match S i with None => true | Some _ => false end
  | NAct i b =>
      match S i with
      | None => false
      | Some (_, sp) =>
          match b with
          | Send x pt => negb (Nat.eqb (sp_epoch sp x) 0) && wfbb pt && (zlen pt <? 2 ^ 60)
          | Deliver j rnd => Nat.eqb (length (rnd 0%nat)) 32 && deliverable sp j
          | Inject _ _ _ _ => false
          end
      end
  end.
Fixpoint nadmissibleb (C : crypto) (L : nat -> link) (K : nat) (N : network) (S : nspec) (acts : list naction) : bool :=
  match acts with
  | [] => true
  | a :: t => nassumedb K S a && nadmissibleb C L K (nstep C L N a) (nspec_step L N S a) t
  end.
Lemma nadmissibleb_ok C L K : forall acts N S, nadmissibleb C L K N S acts = true -> nadmissible C L K N S acts.
Proof.
  induction acts as [|a acts IH]; intros N S H; [exact Logic.I|]. cbn [nadmissibleb] in H. apply andb_true_iff in H. destruct H as [H1 H2].
  cbn [nadmissible]. split; [|apply IH, H2]. destruct a as [i|i b]; cbn [nassumedb nassumed] in *.
  - apply andb_true_iff in H1. destruct H1 as [H1 H3]. split; [now apply Nat.ltb_lt|]. destruct (S i); [discriminate H3|reflexivity].
  - destruct (S i) as [[st sp]|]; [|discriminate H1]. destruct b as [x pt|j rnd|x ty b rnd]; cbn [assumed].
    + rewrite !andb_true_iff, negb_true_iff, Nat.eqb_neq, Z.ltb_lt in H1. destruct H1 as [[H1 H3] H4]. split; [exact H1|].
      split; [apply wfbb_ok, H3|exact H4].
    + apply andb_true_iff in H1. destruct H1 as [H1 H3]. split; [now apply Nat.eqb_eq|left; exact H3].
    + discriminate H1.
Qed.
Definition results (C : crypto) (L : nat -> link) (N : network) (acts : list naction) : list (res bytes) :=
  map (fun n => match nth n acts (NStart 0) with
                | NStart _ => Ok []
                | NAct i b => let N' := fst (nrun C L N (fun _ => None) (firstn n acts)) in snd (fst (perform C (k_peer (L i)) (view L N' i) b))
                end) (seq 0 (length acts)).

Lemma below4 (P : nat -> Prop) : P 0%nat -> P 1%nat -> P 2%nat -> P 3%nat -> forall i, (i < 4)%nat -> P i.
Proof. intros H0 H1 H2 H3 i Hi. destruct i as [|[|[|[|i]]]]; auto. lia. Qed.

Ltac four i H := destruct i as [|[|[|[|i]]]]; [| | | |exfalso; clear - H; lia].
Lemma ex_links_ok : links_ok ex_links 4 (n_w ex_net).
Proof.
  constructor.
  - apply below4; discriminate.
  - intros i j x z Hi Hj Hij. four i Hi; four j Hj; try (elim Hij; reflexivity);
      destruct x, z; cbn [ex_links ex_link k_node k_peer]; intros E; try discriminate E; unfold na, nb, nc; congruence.
  - intros i j x z Hi Hj Hij. four i Hi; four j Hj; try (elim Hij; reflexivity);
      destruct x, z; cbn [ex_links ex_link k_node k_peer fst other]; intros E; try discriminate E; unfold na, nb, nc; intros F; try discriminate F;
      vm_compute; reflexivity.
  - intros i j Hi Hj Hij. four i Hi; four j Hj; try (elim Hij; reflexivity);
      cbn [ex_links ex_link k_node k_pkid]; intros E F; try discriminate E; try discriminate F; auto.
Qed.
Lemma ex_links_setup : forall i, (i < 4)%nat -> setup_ok toy (setup_of (ex_links i) (n_w ex_net)).
Proof.
  apply below4; (constructor; [intros []; vm_compute; split; reflexivity|intros []; vm_compute; split; congruence|intros []; vm_compute; reflexivity|
    vm_compute; reflexivity|vm_compute; split; congruence|vm_compute; reflexivity|vm_compute; repeat split; congruence|vm_compute; reflexivity|
    split; reflexivity|vm_compute; reflexivity]).
Qed.
Example C170_example : links_ok ex_links 4 (n_w ex_net) /\
  (forall i, (i < 4)%nat -> setup_ok toy (setup_of (ex_links i) (n_w ex_net))) /\
  (forall i, (i < 4)%nat -> good_schedule toy (setup_of (ex_links i) (n_w ex_net)) (proj i ex_nacts)) /\
  nadmissible toy ex_links 4 ex_net (fun _ => None) ex_nacts /\
  map (fun n => nth n (results toy ex_links ex_net ex_nacts) Panic) [6; 8; 11; 12; 13; 15]%nat = [Ok [1]; Ok [2]; Ok [3]; Ok [1]; Ok [4]; Ok [5]].
Proof.
  split; [exact ex_links_ok|]. split; [exact ex_links_setup|]. split; [|split].
  - apply below4; (split; [vm_compute; reflexivity|]; apply nodupb_ok; vm_compute; reflexivity).
  - apply nadmissibleb_ok. vm_compute. reflexivity.
  - vm_compute. reflexivity.
Qed.

(* That a one-time prekey is handed out once matters: if C is given the same one as A, C's first
   message is refused once A's has arrived. *)
Definition ex_again (i : nat) : link := match i with 1%nat => ex_link 2%nat 1%nat (nb, 1) (nc, 1) 33 1 (Some (ex_priv 55)) 5 79 89 | _ => ex_links i end.
Example C170_same_prekey :
  map (fun n => nth n (results toy ex_again ex_net ex_nacts) Panic) [6; 8]%nat = [Ok [1]; Err EPreKeyNotFound].
Proof. vm_compute. reflexivity. Qed.
