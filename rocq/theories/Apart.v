(* Goroutines that have to do with different peers: proofs for PropApart.v. The model is that of Concurrent.v;
   building sessions, which is not done under the mutex, is included. *)
From Coq Require Import ZArith List Lia Bool.
From Verif Require Import Bytes Res Wire Crypto Cbc Messages Session Builder History Concurrent ConcurrentProofs.
Import ListNotations.
Open Scope Z_scope.

(* --- the operations of one goroutine made one after another, by itself --- *)
(* the result of an operation and its writes *)
Definition op_do (C : crypto) (w : world) (o : op) : (bool * list sent) * list eff :=
  match o with
  | OCipher c => perform_call C w c
  | OReg _ _ => ((true, []), [])
  | OFirst rid dev b rbase rratchet =>
      match w_sess w rid dev with
      | Some _ => ((true, []), [])
      | None => perform_call C w (CBuild rid dev b rbase rratchet)
      end
  end.
Definition op_after (C : crypto) (w : world) (o : op) : world := apply_effs w (snd (op_do C w o)).
Definition seq_ops (C : crypto) (w : world) (os : list op) : world := fold_left (op_after C) os w.
(* the calls under the mutex among them with their results *)
Fixpoint seq_log (C : crypto) (w : world) (os : list op) : list (call * (bool * list sent)) :=
  match os with
  | [] => []
  | o :: t => match o with OCipher c => [(c, fst (op_do C w o))] | _ => [] end ++ seq_log C (op_after C w o) t
  end.
(* what goroutine i has been given in a run *)
Definition given (i : nat) (s : pstate) : list (call * (bool * list sent)) :=
  map (fun e => (e_call e, e_res e)) (filter (fun e => Nat.eqb (e_who e) i) (p_log s)).
(* whom an operation is about *)
Definition about (o : op) : bytes :=
  match o with OCipher c => fst (peer c) | OReg rid _ => rid | OFirst rid _ _ _ _ => rid end.
(* the operation is the reception of a first message, which may use up a one-time key *)
Definition opens (o : op) : Prop := match o with OCipher (CRecv _ _ PREKEY_BUNDLE _ _) => True | _ => False end.

Section A.
Variable C : crypto.
(* which goroutine has to do with a peer, and which one receives first messages *)
Variable own : bytes -> nat.
Variable lst : nat.

(* the two stores agree in all that goroutine i has to do with *)
Definition wagree (i : nat) (w w' : world) : Prop :=
  (forall rid dev, own rid = i -> w_sess w rid dev = w_sess w' rid dev) /\
  (forall rid, own rid = i -> w_ids w rid = w_ids w' rid) /\
  (i = lst -> forall id, w_pre w id = w_pre w' id) /\
  w_spk w = w_spk w' /\ w_ident w = w_ident w' /\ w_reg w = w_reg w' /\ w_trust_all w = w_trust_all w'.
Definition mine (i : nat) (e : eff) : Prop :=
  match e with EStoreSession rid _ _ _ | ESaveIdentity rid _ => own rid = i | ERemovePreKey _ => i = lst end.
Definition quiet (i : nat) (m : mem) : Prop := forall rid dev, own rid = i -> is_torn m rid dev = false.
Definition tears (i : nat) (m : mem) (rid : bytes) (dev : Z) : Prop :=
  forall r d, own r = i -> is_torn m r d = beq rid r && (dev =? d).
Definition op_ok (i : nat) (o : op) : Prop := own (about o) = i /\ (opens o -> i = lst).

Lemma wagree_refl i w : wagree i w w.
Proof. unfold wagree. auto 10. Qed.
Lemma wagree_mine i w w' e : wagree i w w' -> wagree i (apply_eff w e) (apply_eff w' e).
Proof.
  intros (H1 & H2 & H3 & H4 & H5 & H6 & H7). destruct e as [rid dev a b|id|rid k]; unfold wagree;
    cbn [apply_eff set_sess set_pre set_id w_sess w_ids w_pre w_spk w_ident w_reg w_trust_all]; repeat split; auto.
  - intros r d E. rewrite (H1 r d E). reflexivity.
  - intros E k. rewrite (H3 E k). reflexivity.
  - intros r E. rewrite (H2 r E). reflexivity.
Qed.
Lemma wagree_other i j w w' e : i <> j -> mine j e -> wagree i w w' -> wagree i (apply_eff w e) w'.
Proof.
  intros N M (H1 & H2 & H3 & H4 & H5 & H6 & H7). destruct e as [rid dev a b|id|rid k]; unfold wagree; cbn [mine] in M;
    cbn [apply_eff set_sess set_pre set_id w_sess w_ids w_pre w_spk w_ident w_reg w_trust_all]; repeat split; auto.
  - intros r d E. destruct (beq r rid) eqn:B; [|cbn [andb]; auto]. apply beq_eq in B. subst. contradiction.
  - intros E. subst. contradiction.
  - intros r E. destruct (beq r rid) eqn:B; [|auto]. apply beq_eq in B. subst. contradiction.
Qed.

Lemma call_agree i w w' c : own (fst (peer c)) = i -> (opens (OCipher c) -> i = lst) -> wagree i w w' ->
  perform_call C w c = perform_call C w' c.
Proof.
  intros O P (H1 & H2 & H3 & H4 & H5 & H6 & H7).
  assert (L : forall rid dev, own rid = i -> LoadSession w rid dev = LoadSession w' rid dev).
  { intros rid dev E. unfold LoadSession. now rewrite (H1 _ _ E). }
  assert (T : forall rid k, own rid = i -> IsTrustedIdentity w rid k = IsTrustedIdentity w' rid k).
  { intros rid k E. unfold IsTrustedIdentity. now rewrite (H2 _ E), H7. }
  destruct c as [rid dev pt|rid dev ty b rnd|rid dev b rb rr]; cbn [peer fst] in O; cbn [perform_call].
  - unfold SessionEncryptMessage. now rewrite (L _ _ O).
  - unfold receive. destruct ty.
    + destruct (LoadWhisperMessage b); try reflexivity. unfold SessionDecryptWhisperMessage. now rewrite (L _ _ O).
    + destruct (LoadPreKeyWhisperMessage b) as [m| |]; try reflexivity. unfold SessionDecryptPreKeyWhisperMessage.
      rewrite (L _ _ O). unfold BuildReceiverSession. rewrite (T _ _ O), H4, H5, H6, (H3 (P Logic.I)). reflexivity.
  - unfold BuildSenderSession. rewrite (T _ _ O), (L _ _ O), H5, H6. reflexivity.
Qed.
Lemma call_mine i w c : own (fst (peer c)) = i -> (opens (OCipher c) -> i = lst) -> Forall (mine i) (snd (perform_call C w c)).
Proof.
  intros O P. destruct c as [rid dev pt|rid dev ty b rnd|rid dev b rb rr]; cbn [peer fst] in O; cbn [perform_call].
  - unfold SessionEncryptMessage. destruct (ss_encrypt _ _ _) as [[[? ?] ?]| |]; cbn [snd]; repeat constructor; exact O.
  - destruct (receive C w rid dev ty b rnd) as [r l] eqn:R. cbn [snd]. unfold receive in R. destruct ty.
    + destruct (LoadWhisperMessage b); [|injection R as _ <-; constructor..]. unfold SessionDecryptWhisperMessage in R.
      destruct (sc_decrypt _ _ _ _) as [[?| |] ?]; injection R as _ <-; repeat constructor; exact O.
    + assert (P' := P Logic.I). destruct (LoadPreKeyWhisperMessage b) as [m| |]; [|injection R as _ <-; constructor..].
      unfold SessionDecryptPreKeyWhisperMessage in R.
      destruct (BuildReceiverSession C w rid _ m) as [r0 l0] eqn:B.
      assert (F0 : Forall (mine i) l0).
      { unfold BuildReceiverSession in B. destruct (negb _); [injection B as _ <-; constructor|].
        destruct (negb _); [injection B as _ <-; constructor|]. destruct (hasSessionState _ _ _); [injection B as _ <-; constructor|].
        match type of B with match ?x with _ => _ end = _ => destruct x end; injection B as _ <-; repeat constructor; exact O. }
      destruct r0 as [[pkid r1]| |]; [|injection R as _ <-; exact F0..].
      destruct (sc_decrypt _ _ _ _) as [[?| |] ?]; injection R as _ <-; try exact F0.
      apply Forall_app. split; [exact F0|]. apply Forall_app. split; [|repeat constructor; exact O].
      destruct (pkid =? 16777215); repeat constructor; exact P'.
  - unfold BuildSenderSession. destruct (negb _); [constructor|].
    match goal with |- Forall _ (snd (let (_, _) := if ?x then _ else _ in _)) => destruct x end; [constructor|].
    destruct (b_spk b); [|constructor]. cbn [snd]. repeat constructor; exact O.
Qed.
Lemma do_agree i w w' o : op_ok i o -> wagree i w w' -> op_do C w o = op_do C w' o.
Proof.
  intros [O P] H. destruct o as [c|rid dev|rid dev b rb rr]; cbn [op_do about] in *.
  - now apply (call_agree i).
  - reflexivity.
  - rewrite (proj1 H _ _ O). destruct (w_sess w' rid dev); [reflexivity|]. apply (call_agree i); [exact O|intros []|exact H].
Qed.
Lemma do_mine i w o : op_ok i o -> Forall (mine i) (snd (op_do C w o)).
Proof.
  intros [O P]. destruct o as [c|rid dev|rid dev b rb rr]; cbn [op_do about] in *; [now apply call_mine|constructor|].
  destruct (w_sess w rid dev); [constructor|]. apply call_mine; [exact O|intros []].
Qed.

(* --- where a program leads, whatever the other goroutines do meanwhile --- *)
Inductive to (i : nat) : world -> bool * list sent -> list eff -> prog -> Prop :=
| to_end W ok out : to i W (ok, out) [] (PEnd (Returned ok out))
| to_read W r l k : (forall m, wagree i (m_w m) W -> quiet i m -> to i W r l (k m)) -> to i W r l (PRead k)
| to_store W r l rid dev a b k : own rid = i -> to i (apply_eff W (EStoreSession rid dev a b)) r l k ->
    to i W r (EStoreSession rid dev a b :: l) (PTrunc rid dev (PWrite (EStoreSession rid dev a b) k))
| to_write W r l e k : mine i e -> (forall rid dev a b, e <> EStoreSession rid dev a b) -> to i (apply_eff W e) r l k ->
    to i W r (e :: l) (PWrite e k).

Lemma to_writes i ok out : forall l W, Forall (mine i) l -> to i W (ok, out) l (writes l (Returned ok out)).
Proof.
  induction l as [|e l IH]; intros W F; [constructor|]. inversion F as [|? ? H1 H2]; subst.
  destruct e as [rid dev a b|id|rid k]; cbn [writes]; constructor; try (intros; discriminate); auto.
Qed.
Lemma to_commit i W c m1 m2 m3 m4 m5 r l : own (fst (peer c)) = i -> (opens (OCipher c) -> i = lst) ->
  wagree i (m_w m1) W -> wagree i (m_w m2) W -> wagree i (m_w m3) W -> wagree i (m_w m4) W -> wagree i (m_w m5) W ->
  quiet i m1 -> perform_call C W c = (r, l) -> to i W r l (commit C c m1 m2 m3 m4 m5).
Proof.
  intros O P A1 A2 A3 A4 A5 Q E. unfold commit. rewrite (Q _ _ O).
  assert (A : wagree i (pieces m1 m2 m3 m4 m5) W).
  { unfold wagree in *. unfold pieces. cbn [w_sess w_ids w_pre w_spk w_ident w_reg w_trust_all]. intuition. }
  rewrite (call_agree i _ _ _ O P A), E. destruct r as [ok out]. apply to_writes.
  change l with (snd ((ok, out), l)). rewrite <- E. now apply call_mine.
Qed.
Lemma to_body i W c r l : own (fst (peer c)) = i -> (opens (OCipher c) -> i = lst) -> perform_call C W c = (r, l) -> to i W r l (body C c).
Proof. intros O P E. unfold body. do 5 (constructor; intros). now apply to_commit. Qed.
Lemma to_free i W o : op_ok i o -> (forall c, o <> OCipher c) -> to i W (fst (op_do C W o)) (snd (op_do C W o)) (free_body C o).
Proof.
  intros [O P] N. destruct o as [c|rid dev|rid dev b rb rr]; [now elim (N c)|..]; cbn [free_body op_do about] in *.
  - constructor. intros m A Q. rewrite (Q _ _ O). constructor.
  - constructor. intros m A Q. unfold has_file. rewrite (Q _ _ O), (proj1 A _ _ O). cbn [orb].
    destruct (w_sess W rid dev); [constructor|]. unfold build_body. do 3 (constructor; intros). apply to_commit; auto.
    now destruct (perform_call C W (CBuild rid dev b rb rr)).
Qed.

(* --- files that are truncated --- *)
Lemma torn_cons m w rid dev r d : is_torn (mkMem w ((rid, dev) :: m_torn m)) r d = (beq rid r && (dev =? d)) || is_torn m r d.
Proof. reflexivity. Qed.
Lemma torn_untorn w w' l rid dev r d : is_torn (mkMem w (untorn rid dev l)) r d = is_torn (mkMem w' l) r d && negb (beq rid r && (dev =? d)).
Proof.
  unfold is_torn, untorn. cbn [m_torn]. induction l as [|[x y] l IH]; [reflexivity|]. cbn [filter existsb fst snd].
  destruct (beq x rid && (y =? dev)) eqn:E; cbn [negb existsb fst snd].
  - rewrite IH. apply andb_prop in E. destruct E as [E1 E2]. apply beq_eq in E1. apply Z.eqb_eq in E2. subst.
    destruct (beq rid r && (dev =? d)); cbn [orb negb]; [now rewrite !andb_false_r|reflexivity].
  - rewrite IH. destruct (beq x r && (y =? d)) eqn:F; [|reflexivity]. cbn [orb andb].
    apply andb_prop in F. destruct F as [F1 F2]. apply beq_eq in F1. apply Z.eqb_eq in F2. subst.
    assert (X : beq rid r && (dev =? d) = false).
    { destruct (beq rid r) eqn:G; [|reflexivity]. apply beq_eq in G. subst. rewrite beq_refl in E. cbn [andb] in *. now rewrite Z.eqb_sym. }
    rewrite X. reflexivity.
Qed.
Lemma torn_write e m r d : is_torn (do_write e m) r d =
  is_torn m r d && negb match e with EStoreSession rid dev _ _ => beq rid r && (dev =? d) | _ => false end.
Proof.
  unfold do_write. destruct e as [rid dev a b|id|rid k]; [exact (torn_untorn _ (m_w m) _ _ _ _ _)|now rewrite andb_true_r..].
Qed.
(* the accesses of another goroutine *)
Lemma torn_other i j m e r d : i <> j -> mine j e -> own r = i -> is_torn (do_write e m) r d = is_torn m r d.
Proof.
  intros N M O. rewrite torn_write. destruct e as [rid dev a b|id|rid k]; [|now rewrite andb_true_r..]. cbn [mine] in M.
  destruct (beq rid r) eqn:B; [apply beq_eq in B; subst; contradiction|]. now rewrite andb_true_r.
Qed.

(* --- the invariant --- *)
Section Inv.
Variable w : world.
Variable threads : nat -> list op.

(* goroutine i is within operation o, begun with the stores as in W0 *)
Definition within_op (i : nat) (W0 : world) (o : op) (p : prog) (m : mem) : Prop :=
  exists l1 l, snd (op_do C W0 o) = l1 ++ l /\ wagree i (m_w m) (apply_effs W0 l1) /\
    ((quiet i m /\ to i (apply_effs W0 l1) (fst (op_do C W0 o)) l p) \/
     exists rid dev a b k l', l = EStoreSession rid dev a b :: l' /\ p = PWrite (EStoreSession rid dev a b) k /\ own rid = i /\
       to i (apply_eff (apply_effs W0 l1) (EStoreSession rid dev a b)) (fst (op_do C W0 o)) l' k /\ tears i m rid dev).
Definition stands (i : nat) (t : tstate) (m : mem) (g : list (call * (bool * list sent))) : Prop :=
  exists done todo, threads i = done ++ todo /\ g = seq_log C w done /\
  match t with
  | Ready l => l = todo /\ wagree i (m_w m) (seq_ops C w done) /\ quiet i m
  | Inside c p l => todo = OCipher c :: l /\ within_op i (seq_ops C w done) (OCipher c) p m
  | Free o p l => todo = o :: l /\ (forall c, o <> OCipher c) /\ within_op i (seq_ops C w done) o p m
  end.
Definition ainv (s : pstate) : Prop := p_dead s = false /\ forall i, stands i (p_thr s i) (p_mem s) (given i s).

Lemma seq_log_app a : forall b w0, seq_log C w0 (a ++ b) = seq_log C w0 a ++ seq_log C (seq_ops C w0 a) b.
Proof.
  induction a as [|o a IH]; intros b w0; [reflexivity|]. cbn [app seq_log]. rewrite IH, <- app_assoc. reflexivity.
Qed.
Lemma seq_ops_snoc a o : seq_ops C w (a ++ [o]) = op_after C (seq_ops C w a) o.
Proof. unfold seq_ops. now rewrite fold_left_app. Qed.

(* what another goroutine does is not noticed *)
Lemma stands_mem i t m m' g : stands i t m g -> (forall W, wagree i (m_w m) W -> wagree i (m_w m') W) ->
  (forall r d, own r = i -> is_torn m' r d = is_torn m r d) -> stands i t m' g.
Proof.
  intros (dn & todo & H1 & H2 & H3) HA HT. exists dn, todo. split; [exact H1|]. split; [exact H2|].
  assert (Q : quiet i m -> quiet i m') by (intros H r d E; rewrite HT by exact E; now apply H).
  assert (X : forall W0 o p, within_op i W0 o p m -> within_op i W0 o p m').
  { intros W0 o p (l1 & l & A & B & D). exists l1, l. split; [exact A|]. split; [now apply HA|].
    destruct D as [[D1 D2]|(rid & dev & a & b & k & l' & E1 & E2 & E3 & E4 & E5)]; [left; auto|right].
    exists rid, dev, a, b, k, l'. repeat (split; [assumption|]). intros r d E. rewrite HT by exact E. now apply E5. }
  destruct t; [destruct H3 as (A & B & D)|destruct H3 as (A & B)|destruct H3 as (A & B & D)]; auto.
Qed.

Hypothesis HT : forall i o, In o (threads i) -> op_ok i o.

(* one access of goroutine i within an operation *)
Lemma within_step i W0 o p m : within_op i W0 o p m ->
  match p with
  | PEnd Died => False
  | PEnd (Returned ok out) => fst (op_do C W0 o) = (ok, out) /\ wagree i (m_w m) (op_after C W0 o) /\ quiet i m
  | PRead k => within_op i W0 o (k m) m
  | PTrunc rid dev k => own rid = i /\ within_op i W0 o k (mkMem (m_w m) ((rid, dev) :: m_torn m))
  | PWrite e k => mine i e /\ within_op i W0 o k (do_write e m)
  end.
Proof.
  intros (l1 & l & A & B & [[Q T]|(rid & dev & a & b & k & l' & -> & -> & E3 & E4 & E5)]).
  - revert A B. inversion T as [W ok out|W r l0 k H|W r l0 rid dev a b k O H|W r l0 e k M N H]; subst; intros A B.
    + split; [congruence|]. split; [|exact Q]. unfold op_after. rewrite A, app_nil_r. exact B.
    + exists l1, l. split; [exact A|]. split; [exact B|]. left. split; [exact Q|]. now apply H.
    + split; [reflexivity|]. exists l1, (EStoreSession rid dev a b :: l0). split; [exact A|]. split; [exact B|]. right.
      exists rid, dev, a, b, k, l0. repeat (split; [first [reflexivity|assumption]|]).
      intros r' d' E. rewrite torn_cons, (Q _ _ E). apply orb_false_r.
    + split; [exact M|]. exists (l1 ++ [e]), l0. split; [rewrite A, <- app_assoc; reflexivity|]. rewrite apply_effs_app.
      split; [now apply wagree_mine|]. left. split; [|exact H].
      intros r' d' E. rewrite torn_write, (Q _ _ E). reflexivity.
  - split; [exact E3|]. exists (l1 ++ [EStoreSession rid dev a b]), l'. split; [rewrite A, <- app_assoc; reflexivity|].
    rewrite apply_effs_app. split; [now apply wagree_mine|]. left. split; [|exact E4].
    intros r d E. rewrite torn_write, (E5 _ _ E). apply andb_negb_r.
Qed.

Lemma given_other i j m l thr log c r d : i <> j -> given i (mkP m l thr (log ++ [mkEntry j c r]) d) = given i (mkP m l thr log d).
Proof.
  intros N. unfold given. cbn [p_log]. rewrite filter_app, map_app. cbn [filter e_who].
  destruct (Nat.eqb_spec j i); [congruence|]. cbn [map]. apply app_nil_r.
Qed.
Lemma ainv_step s i : ainv s -> ainv (pstep C s i).
Proof.
  intros [D H]. unfold pstep. rewrite D.
  (* the other goroutines *)
  assert (X : forall m l t log, (forall j, j <> i -> (forall W, wagree j (m_w (p_mem s)) W -> wagree j (m_w m) W) /\
        (forall r d, own r = j -> is_torn m r d = is_torn (p_mem s) r d)) ->
      (forall j, j <> i -> given j (mkP m l (p_thr s) log false) = given j s) ->
      stands i t m (given i (mkP m l (p_thr s) log false)) ->
      ainv (mkP m l (set_thr (p_thr s) i t) log false)).
  { intros m l t log HM HG HS. split; [reflexivity|]. intros j. cbn [p_thr p_mem]. destruct (Nat.eq_dec j i) as [->|N].
    - rewrite set_same. exact HS.
    - rewrite set_other by exact N. destruct (HM j N) as [HM1 HM2]. apply (stands_mem j _ (p_mem s)); [|exact HM1|exact HM2].
      change (given j _) with (given j (mkP m l (p_thr s) log false)). rewrite HG by exact N. apply H. }
  assert (S0 : forall j, j <> i -> (forall W, wagree j (m_w (p_mem s)) W -> wagree j (m_w (p_mem s)) W) /\
        (forall r d, own r = j -> is_torn (p_mem s) r d = is_torn (p_mem s) r d)) by auto.
  assert (SW : forall e, mine i e -> forall j, j <> i -> (forall W, wagree j (m_w (p_mem s)) W -> wagree j (m_w (do_write e (p_mem s))) W) /\
        (forall r d, own r = j -> is_torn (do_write e (p_mem s)) r d = is_torn (p_mem s) r d)).
  { intros e M j N. split; [intros W; now apply (wagree_other j i)|]. intros r d O. now apply (torn_other j i). }
  assert (ST : forall rid dev, own rid = i -> forall j, j <> i -> (forall W, wagree j (m_w (p_mem s)) W -> wagree j (m_w (p_mem s)) W) /\
        (forall r d, own r = j -> is_torn (mkMem (m_w (p_mem s)) ((rid, dev) :: m_torn (p_mem s))) r d = is_torn (p_mem s) r d)).
  { intros rid dev O j N. split; [auto|]. intros r d E. rewrite torn_cons. destruct (beq rid r) eqn:B; [|reflexivity].
    apply beq_eq in B. subst. contradiction. }
  destruct (H i) as (dn & todo & H1 & H2 & H3).
  destruct (p_thr s i) as [[|o t]|c p t|o p t] eqn:E.
  - split; [exact D|exact H].
  - destruct H3 as (<- & A & Q).
    assert (OK : op_ok i o) by (apply HT; rewrite H1; apply in_or_app; right; now left).
    assert (FR : (forall c, o <> OCipher c) -> ainv (mkP (p_mem s) (p_lock s) (set_thr (p_thr s) i (Free o (free_body C o) t)) (p_log s) false)).
    { intros N. apply X; [exact S0|reflexivity|]. exists dn, (o :: t). split; [exact H1|]. split; [exact H2|].
      split; [reflexivity|]. split; [exact N|]. exists [], (snd (op_do C (seq_ops C w dn) o)). split; [reflexivity|]. split; [exact A|]. left.
      split; [exact Q|]. now apply to_free. }
    destruct o as [c|rid dev|rid dev b rb rr]; [|apply FR; intros; discriminate..].
    destruct (p_lock s); [split; [exact D|exact H]|].
    apply X; [exact S0|reflexivity|]. exists dn, (OCipher c :: t). split; [exact H1|]. split; [exact H2|]. split; [reflexivity|].
    exists [], (snd (op_do C (seq_ops C w dn) (OCipher c))). split; [reflexivity|]. split; [exact A|]. left. split; [exact Q|].
    destruct OK as [O P]. apply to_body; [exact O|exact P|]. exact (surjective_pairing (perform_call C (seq_ops C w dn) c)).
  - destruct H3 as (-> & WI). pose proof (within_step _ _ _ _ _ WI) as Y.
    destruct p as [[ok out|]|k|rid dev k|e k].
    + destruct Y as (Y1 & Y2 & Y3). apply X; [exact S0|intros j N; rewrite given_other by exact N; reflexivity|].
      exists (dn ++ [OCipher c]), t. split; [rewrite H1, <- app_assoc; reflexivity|]. split.
      * unfold given. cbn [p_log]. rewrite filter_app, map_app. cbn [filter e_who]. rewrite Nat.eqb_refl. cbn [map e_call e_res].
        fold (given i s). rewrite H2, seq_log_app. cbn [seq_log app]. rewrite Y1. reflexivity.
      * split; [reflexivity|]. rewrite seq_ops_snoc. auto.
    + destruct Y.
    + apply X; [exact S0|reflexivity|]. exists dn, (OCipher c :: t). auto.
    + destruct Y as [O Y]. apply X; [now apply ST|reflexivity|]. exists dn, (OCipher c :: t). auto.
    + destruct Y as [O Y]. apply X; [now apply SW|reflexivity|]. exists dn, (OCipher c :: t). auto.
  - destruct H3 as (-> & N & WI). pose proof (within_step _ _ _ _ _ WI) as Y.
    destruct p as [[ok out|]|k|rid dev k|e k].
    + destruct Y as (Y1 & Y2 & Y3). apply X; [exact S0|reflexivity|].
      exists (dn ++ [o]), t. split; [rewrite H1, <- app_assoc; reflexivity|]. split.
      * change (given i _) with (given i s). rewrite H2, seq_log_app. cbn [seq_log]. destruct o as [c| |]; [now elim (N c)|now rewrite app_nil_r..].
      * split; [reflexivity|]. rewrite seq_ops_snoc. auto.
    + destruct Y.
    + apply X; [exact S0|reflexivity|]. exists dn, (o :: t). auto.
    + destruct Y as [O Y]. apply X; [now apply ST|reflexivity|]. exists dn, (o :: t). auto.
    + destruct Y as [O Y]. apply X; [now apply SW|reflexivity|]. exists dn, (o :: t). auto.
Qed.
Lemma ainv_init : ainv (pinit w threads).
Proof.
  split; [reflexivity|]. intros i. exists [], (threads i). split; [reflexivity|]. split; [reflexivity|]. cbn [pinit p_thr p_mem m_w].
  split; [reflexivity|]. split; [apply wagree_refl|]. intros rid dev _. reflexivity.
Qed.
Lemma ainv_run sched : forall s, ainv s -> ainv (prun C s sched).
Proof.
  induction sched as [|i sched IH]; intros s H; [exact H|]. change (ainv (prun C (pstep C s i) sched)). apply IH. now apply ainv_step.
Qed.
End Inv.
End A.
