(* C15: a first message whose processing was cut off. *)
From Coq Require Import ZArith List Lia Bool.
From Verif Require Import Bytes Res Wire Crypto Cbc Messages Session Builder SessionProofs SessionFacts
  History HistoryProofs.
Import ListNotations.
Open Scope Z_scope.

Section R.
Variable C : crypto.

(* The random input of a decryption does not influence its result. *)
Lemma gocck_rnd s rk r1 r2 :
  match getOrCreateChainKey C s rk r1, getOrCreateChainKey C s rk r2 with
  | Ok (c1, s1), Ok (c2, s2) => c1 = c2 /\ s_recv s1 = s_recv s2 /\ s_remote s1 = s_remote s2 /\ s_local s1 = s_local s2
  | Err a, Err b => a = b
  | Panic, Panic => True
  | _, _ => False
  end.
Proof.
  unfold getOrCreateChainKey. destruct (find_chain rk (s_recv s)) as [rc|].
  - destruct (load_ck (ch_ck rc)); cbn [bind]; auto.
  - destruct (key32 (s_root s)) as [root|e|]; cbn [bind]; auto. destruct (s_sender s) as [sc|]; auto.
    destruct (key32 (ch_rpriv sc)) as [priv|e|]; cbn [bind]; auto. destruct (key32 (ch_rpub sc)) as [pub|e|]; cbn [bind]; auto.
    destruct (createChain C root rk priv) as [root1 rck].
    destruct (createChain C root1 rk (clamp r1)) as [x1 x2]. destruct (createChain C root1 rk (clamp r2)) as [y1 y2].
    destruct (load_ck (ch_ck sc)); cbn [bind]; auto.
Qed.

Lemma gocmk_rnd s1 s2 rk c counter : s_recv s1 = s_recv s2 ->
  fst (getOrCreateMessageKeys C s1 rk c counter) = fst (getOrCreateMessageKeys C s2 rk c counter).
Proof.
  intros E. unfold getOrCreateMessageKeys. rewrite E.
  repeat match goal with |- context [if ?b then _ else _] => destruct b end;
  destruct (find_chain rk (s_recv s2)) as [rc|]; try destruct (take_mk counter (ch_mks rc)) as [[k rest]|];
  try destruct (skip_keys C _ _ _) as [c' mks]; reflexivity.
Qed.

Lemma ss_decrypt_rnd s m r1 r2 : fst (ss_decrypt C s m r1) = fst (ss_decrypt C s m r2).
Proof.
  unfold ss_decrypt. destruct (s_sender s); auto. destruct (negb _); auto.
  pose proof (gocck_rnd s (wm_rkey m) r1 r2) as G.
  destruct (getOrCreateChainKey C s (wm_rkey m) r1) as [[c1 s1]|e1|], (getOrCreateChainKey C s (wm_rkey m) r2) as [[c2 s2]|e2|];
    try destruct G; auto; try (now subst).
  subst c2. destruct H0 as (E1 & E2 & E3).
  pose proof (gocmk_rnd s1 s2 (wm_rkey m) c1 (wm_counter m) E1) as M.
  destruct (getOrCreateMessageKeys C s1 (wm_rkey m) c1 (wm_counter m)) as [q1 t1] eqn:G1.
  destruct (getOrCreateMessageKeys C s2 (wm_rkey m) c1 (wm_counter m)) as [q2 t2] eqn:G2. cbn [fst] in M. subst q2.
  apply gocmk_frame in G1. apply gocmk_frame in G2. destruct G1 as (A1 & A2 & _). destruct G2 as (B1 & B2 & _).
  assert (X1 : s_remote t1 = s_remote t2) by congruence. assert (X2 : s_local t1 = s_local t2) by congruence.
  destruct q1 as [mk|e|]; auto. rewrite X1, X2.
  destruct (key32 (s_remote t2)); auto. destruct (key32 (s_local t2)); auto.
  destruct (negb _); auto. destruct (Decrypt C _ _); auto.
Qed.

Lemma try_prevs_rnd m r1 r2 l : forall i,
  match fst (try_prevs C l m r1 i), fst (try_prevs C l m r2 i) with
  | Ok (Some (p, _)), Ok (Some (q, _)) => p = q
  | Ok None, Ok None => True
  | Err a, Err b => a = b
  | Panic, Panic => True
  | _, _ => False
  end.
Proof.
  induction l as [|s l IH]; intros i; cbn [try_prevs]; [exact I|].
  pose proof (ss_decrypt_rnd s m (r1 i) (r2 i)) as E.
  destruct (ss_decrypt C s m (r1 i)) as [[p|e|] s1], (ss_decrypt C s m (r2 i)) as [[q|e'|] s2]; cbn [fst] in E; try discriminate; cbn [fst]; auto.
  - now injection E.
  - specialize (IH (S i)). destruct (try_prevs C l m r1 (S i)) as [q1 l1], (try_prevs C l m r2 (S i)) as [q2 l2]. exact IH.
Qed.

Lemma sc_decrypt_rnd r m r1 r2 : fst (sc_decrypt C r m r1) = fst (sc_decrypt C r m r2).
Proof.
  unfold sc_decrypt. pose proof (ss_decrypt_rnd (r_cur r) m (r1 0%nat) (r2 0%nat)) as E.
  destruct (ss_decrypt C (r_cur r) m (r1 0%nat)) as [[p|e|] s1], (ss_decrypt C (r_cur r) m (r2 0%nat)) as [[q|e'|] s2];
    cbn [fst] in E; try discriminate; cbn [fst]; auto.
  pose proof (try_prevs_rnd m r1 r2 (r_prevs r) 1) as T.
  destruct (try_prevs C (r_prevs r) m r1 1) as [q1 l1], (try_prevs C (r_prevs r) m r2 1) as [q2 l2]. cbn [fst] in T.
  destruct q1 as [[[a b]|]|a|], q2 as [[[a' b']|]|a'|]; try destruct T; cbn [fst]; auto; try congruence.
Qed.

(* what a prefix of the writes of a first message does to the rest of the store *)
Lemma prefix_world w rid dev m rnd pt l k :
  SessionDecryptPreKeyWhisperMessage C w rid dev m rnd = (Ok pt, l) ->
  (forall r d c p, ~ In (EStoreSession r d c p) (firstn k l)) ->
  (pk_pkid m <> 0 -> ~ In (ERemovePreKey (pk_pkid m)) (firstn k l)) ->
  let w' := apply_effs w (firstn k l) in
  w_ident w' = w_ident w /\ w_reg w' = w_reg w /\ w_spk w' = w_spk w /\
  w_sess w' = w_sess w /\ (pk_pkid m <> 0 -> w_pre w' (pk_pkid m) = w_pre w (pk_pkid m)) /\
  IsTrustedIdentity w' rid (pk_ident m) = true.
Proof.
  intros R HS HP w'.
  assert (T : IsTrustedIdentity w rid (pk_ident m) = true).
  { unfold SessionDecryptPreKeyWhisperMessage, BuildReceiverSession in R. destruct (negb (pk_version m =? _)); [discriminate|].
    destruct (IsTrustedIdentity w rid (pk_ident m)); [reflexivity|discriminate]. }
  assert (FO : Forall (fun e => match e with ESaveIdentity r key => r = rid /\ key = pk_ident m | _ => True end) l).
  { unfold SessionDecryptPreKeyWhisperMessage in R.
    destruct (BuildReceiverSession C w rid (LoadSession w rid dev) m) as [[[pkid r1]|e|] l1] eqn:B; try discriminate.
    destruct (sc_decrypt C r1 (pk_msg m) rnd) as [[q|e|] r']; try discriminate. injection R as _ <-.
    apply Forall_app. split.
    - apply build_recv_inv in B. destruct B as [(_ & -> & _)|(spk & otk & r2 & -> & _)]; repeat constructor.
    - apply Forall_app. split; [destruct (_ =? _)|]; repeat constructor. }
  apply (Forall_firstn _ k) in FO. subst w'. revert FO HS HP. generalize (firstn k l). clear R l. revert w T.
  intros w T l. revert w T. induction l as [|e l IH]; intros w T FO HS HP; [cbn; auto 10|].
  inversion FO as [|? ? F1 F2]; subst. cbn [apply_effs fold_left]. fold (apply_effs (apply_eff w e) l).
  assert (T' : IsTrustedIdentity (apply_eff w e) rid (pk_ident m) = true).
  { destruct e as [| |r key]; cbn [apply_eff]; auto. destruct F1 as [-> ->]. unfold IsTrustedIdentity. cbn [set_id w_trust_all w_ids].
    rewrite beq_refl. now rewrite beq_refl, orb_true_r. }
  destruct (IH (apply_eff w e) T' F2) as (A1 & A2 & A3 & A4 & A5 & A6).
  - intros r d c p Hin. apply (HS r d c p). now right.
  - intros Hp Hin. apply (HP Hp). now right.
  - destruct e as [r d c p|id|r key]; cbn [apply_eff] in *.
    + exfalso. apply (HS r d c p). now left.
    + repeat split; auto. intros Hp. rewrite A5 by auto. cbn [set_pre w_pre].
      destruct (Z.eqb_spec (pk_pkid m) id); auto. subst. exfalso. apply (HP Hp). now left.
    + repeat split; auto.
Qed.

Theorem crash_retry w rid dev b m rnd pt l k rnd' :
  LoadPreKeyWhisperMessage b = Ok m ->
  receive C w rid dev PREKEY_BUNDLE b rnd = (Ok pt, l) ->
  (forall r d c p, ~ In (EStoreSession r d c p) (firstn k l)) ->
  (pk_pkid m <> 0 -> ~ In (ERemovePreKey (pk_pkid m)) (firstn k l)) ->
  fst (receive C (apply_effs w (firstn k l)) rid dev PREKEY_BUNDLE b rnd') = Ok pt.
Proof.
  intros L R HS HP. cbn [receive] in *. rewrite L in *.
  destruct (prefix_world _ _ _ _ _ _ _ _ R HS HP) as (A1 & A2 & A3 & A4 & A5 & A6).
  set (w' := apply_effs w (firstn k l)) in *.
  unfold SessionDecryptPreKeyWhisperMessage in *.
  assert (EL : LoadSession w' rid dev = LoadSession w rid dev) by (unfold LoadSession; now rewrite A4).
  assert (EB : fst (BuildReceiverSession C w' rid (LoadSession w rid dev) m) = fst (BuildReceiverSession C w rid (LoadSession w rid dev) m)).
  { unfold BuildReceiverSession in *. destruct (negb (pk_version m =? _)); [reflexivity|].
    rewrite A6. destruct (IsTrustedIdentity w rid (pk_ident m)); [|discriminate]. cbn [negb].
    destruct (hasSessionState _ _ _); [reflexivity|]. rewrite A1, A2, A3.
    destruct (Z.eqb_spec (pk_pkid m) 0) as [E|E].
    - destruct (bind (of_option ENotFound (w_spk w (pk_spkid m))) _); reflexivity.
    - rewrite A5 by auto. destruct (bind (of_option ENotFound (w_spk w (pk_spkid m))) _); reflexivity. }
  rewrite EL. destruct (BuildReceiverSession C w rid (LoadSession w rid dev) m) as [[[pkid r1]|e|] l1]; try discriminate.
  cbn [fst] in EB. destruct (BuildReceiverSession C w' rid (LoadSession w rid dev) m) as [q l2]. cbn [fst] in EB. subst q.
  pose proof (sc_decrypt_rnd r1 (pk_msg m) rnd rnd') as E.
  destruct (sc_decrypt C r1 (pk_msg m) rnd) as [[q|e|] r'] eqn:D; try discriminate. injection R as -> _. cbn [fst] in E.
  destruct (sc_decrypt C r1 (pk_msg m) rnd') as [q' r2]. cbn [fst] in E. now subst q'.
Qed.
End R.
