(* C54: published prekeys are the stored ones. *)
From Coq Require Import ZArith List Lia Bool Sorted.
From Verif Require Import Bytes Res Wire WireProofs Crypto Cbc Messages Session Builder RecordCodec RecordCodecProofs Decimal
  Storage StorageProofs Encodings PropEncodings PreKeyGen.
Import ListNotations.
Open Scope Z_scope.
Ltac Zify.zify_post_hook ::= Z.to_euclidean_division_equations.

(* ---------- the directory as a sorted list of ids ---------- *)

Fixpoint insert_id (a : Z) (l : list Z) : list Z :=
  match l with [] => [a] | m :: t => if m <? a then m :: insert_id a t else a :: l end.
Definition sorted_ids (l : list Z) : list Z := fold_right insert_id [] l.

Lemma insert_pad9 a l : 0 <= a < 10 ^ 9 -> Forall (fun i => 0 <= i < 10 ^ 9) l ->
  insert_name (pad9 a) (map pad9 l) = map pad9 (insert_id a l).
Proof.
  intros Ha. induction l as [| m t IH]; intros F; [reflexivity |]. inversion F; subst.
  cbn [map insert_name insert_id]. pose proof (pad9_order m a H1 Ha) as O.
  destruct (blt (pad9 m) (pad9 a)) eqn:E.
  - assert (m < a) by tauto. replace (m <? a) with true by (symmetry; apply Z.ltb_lt; lia). cbn [map]. rewrite IH; auto.
  - replace (m <? a) with false; [reflexivity |]. symmetry. apply Z.ltb_ge. destruct (Z.lt_ge_cases m a); [| lia].
    apply O in H. congruence.
Qed.
Lemma insert_in x a l : In x (insert_id a l) <-> x = a \/ In x l.
Proof. induction l as [| m t IH]; cbn [insert_id]; [cbn; intuition |]. destruct (m <? a); cbn; rewrite ?IH; cbn; intuition. Qed.
Lemma sorted_in x l : In x (sorted_ids l) <-> In x l.
Proof. induction l as [| m t IH]; cbn; [tauto |]. rewrite insert_in, IH. intuition. Qed.
Lemma insert_sorted a l : StronglySorted Z.lt l -> ~ In a l -> StronglySorted Z.lt (insert_id a l).
Proof.
  induction 1 as [| m t S IH F]; intros N; cbn [insert_id]; [repeat constructor |].
  destruct (Z.ltb_spec m a).
  - constructor; [apply IH; intros X; apply N; now right |]. apply Forall_forall. intros x Hx. apply insert_in in Hx as [-> | Hx]; [lia |].
    rewrite Forall_forall in F. auto.
  - assert (a < m) by (destruct (Z.eq_dec a m); [subst; exfalso; apply N; now left | lia]).
    constructor; [constructor; assumption |]. constructor; [assumption |]. eapply Forall_impl; [| exact F]. cbn. lia.
Qed.
Lemma sorted_sorted l : NoDup l -> StronglySorted Z.lt (sorted_ids l).
Proof.
  induction 1 as [| x l N D IH]; [constructor |]. apply insert_sorted; [exact IH |]. rewrite sorted_in. exact N.
Qed.
Lemma names_sorted l : Forall (fun i => 0 <= i < 10 ^ 9) l -> fold_right insert_name [] (map pad9 l) = map pad9 (sorted_ids l).
Proof.
  induction 1 as [| x l H F IH]; [reflexivity |]. cbn [map fold_right sorted_ids]. rewrite IH. apply insert_pad9; [exact H |].
  apply Forall_forall. intros y Hy. apply (sorted_in y l) in Hy. rewrite Forall_forall in F. auto.
Qed.

(* ---------- what is in the directory ---------- *)

Section P.
Variable C : crypto.
Hypothesis OK : crypto_ok C.
Variable cf : sconf.
Hypothesis CF : conf_ok cf.

Definition goodkp (kp : keypair) : Prop := length (fst kp) = 32%nat /\ wfb (fst kp) /\ length (snd kp) = 32%nat /\ wfb (snd kp).
Definition good_rec (r : prekey_rec) : Prop :=
  0 <= pkr_id r < 2 ^ 32 /\ length (pkr_pub r) = 32%nat /\ wfb (pkr_pub r) /\ length (pkr_priv r) = 32%nat /\ wfb (pkr_priv r).
Definition good_file (e : path * bytes) : Prop :=
  fst (fst e) = DPreKeys ->
  exists r, good_rec r /\ pkr_id r < 10 ^ 9 /\ snd (fst e) = pad9 (pkr_id r) /\ st_decrypt C cf (snd e) = Ok (pkr_serialize r).
Definition inv (fs : files) : Prop := NoDup (map fst fs) /\ Forall good_file fs.

Lemma enc_varint_le n : forall v, (length (enc_varint n v) <= n)%nat.
Proof.
  induction n as [| n IH]; intros v; cbn [enc_varint]; [cbn; lia |]. destruct (v <? 128); cbn [length]; [lia |].
  specialize (IH (v / 128)). lia.
Qed.
Lemma rec_small r : good_rec r -> zlen (pkr_serialize r) < 2 ^ 63.
Proof.
  intros (_ & L1 & _ & L2 & _).
  assert (V : forall v, (length (varint v) <= 10)%nat) by (intros; apply enc_varint_le).
  assert (F : (length (pkr_serialize r) <= 200)%nat); [| unfold zlen; lia].
  unfold pkr_serialize, marshal, pkr_slots, flat, encode, f_u32, f_bytes. cbn [flat_map map fst snd].
  destruct (pkr_pub r) as [| x1 t1] eqn:E1; [discriminate |]. destruct (pkr_priv r) as [| x2 t2] eqn:E2; [discriminate |].
  rewrite <- E1, <- E2. rewrite <- E1 in L1. rewrite <- E2 in L2. clear E1 E2.
  destruct (pkr_id r =? 0); cbn [map app flat_map]; unfold enc_field; cbn [fst snd enc_val];
    repeat rewrite app_length; cbn [length]; rewrite ?L1, ?L2;
    repeat match goal with |- context [length (varint ?v)] => pose proof (V v); generalize dependent (length (varint v)); intros end; lia.
Qed.
Lemma rec_wf r : good_rec r -> wfb (pkr_serialize r).
Proof.
  intros (I & _ & W1 & _ & W2). apply marshal_wf. unfold pkr_slots.
  repeat (apply Forall_cons; [cbn [fst snd]; split; [lia |]; first [apply wb_u32; unfold u32; lia | apply wb_bytes; assumption] |]). apply Forall_nil.
Qed.

Lemma in_read fs p b : NoDup (map fst fs) -> In (p, b) fs -> raw_read fs p = Some b.
Proof.
  induction fs as [| (q, c) t IH]; cbn [map fst]; intros N I; [destruct I |]. inversion N; subst. cbn [raw_read].
  destruct I as [[= -> ->] | I]; [rewrite path_eqb_refl; reflexivity |].
  rewrite path_eqb_neq; [auto |]. intros ->. apply H1. change p with (fst (p, b)). apply in_map. exact I.
Qed.

Lemma inv_load fs e r : inv fs -> In e fs -> good_rec r -> pkr_id r < 10 ^ 9 -> fst e = preKeyPath (pkr_id r) ->
  st_decrypt C cf (snd e) = Ok (pkr_serialize r) -> LoadPreKey C cf fs (pkr_id r) = Ok r.
Proof.
  intros (N & _) I G _ P D. destruct e as (p, b). cbn [fst snd] in *. unfold LoadPreKey, readFile. rewrite <- P, (in_read fs p b N I).
  rewrite D. cbn [bind]. apply prekey_round_trip; [unfold u32; unfold good_rec in G; lia | apply rec_small; exact G].
Qed.

(* the ids of the files, in the order of the file list *)
Lemma inv_ids fs : inv fs -> exists ids,
  map (fun e : path * bytes => snd (fst e)) (filter (fun e => dir_eqb (fst (fst e)) DPreKeys) fs) = map pad9 ids /\ NoDup ids /\
  Forall (fun i => 0 <= i < 10 ^ 9) ids /\
  (forall id, In id ids <-> exists r, pkr_id r = id /\ good_rec r /\ id < 10 ^ 9 /\
     exists b, In (preKeyPath id, b) fs /\ st_decrypt C cf b = Ok (pkr_serialize r)).
Proof.
  induction fs as [| (p, b) t IH]; intros (N & F).
  - exists []. cbn. split; [reflexivity |]. split; [constructor |]. split; [constructor |]. intros id. split; [intros [] |].
    intros (r & _ & _ & _ & b & [] & _).
  - inversion F as [| ? ? G Ft]; subst. cbn [map fst] in N. inversion N as [| ? ? Np Nt]; subst.
    destruct (IH (conj Nt Ft)) as (ids & E & Nd & R & M). cbn [filter fst]. destruct (dir_eqb (fst p) DPreKeys) eqn:D.
    + apply dir_eqb_eq in D. destruct (G D) as (r & Gr & L & Nm & Dc). cbn [fst snd] in *.
      assert (Pp : p = preKeyPath (pkr_id r)) by (destruct p as (d, n); cbn [fst snd] in *; subst; reflexivity).
      exists (pkr_id r :: ids). cbn [map fst snd]. rewrite E, Nm. split; [reflexivity |].
      assert (NI : ~ In (pkr_id r) ids).
      { intros X. apply M in X as (r' & _ & _ & _ & b' & I & _). apply Np. rewrite Pp.
        change (preKeyPath (pkr_id r)) with (fst (preKeyPath (pkr_id r), b')). apply in_map. exact I. }
      split; [constructor; assumption |]. split; [constructor; [unfold good_rec in Gr; lia | exact R] |].
      intros id. cbn [In]. rewrite M. split.
      * intros [<- | (r' & H1 & H2 & H3 & b' & H4 & H5)].
        -- exists r. split; [reflexivity |]. split; [exact Gr |]. split; [exact L |]. exists b. split; [left; now rewrite Pp | exact Dc].
        -- exists r'. split; [exact H1 |]. split; [exact H2 |]. split; [exact H3 |]. exists b'. auto.
      * intros (r' & H1 & H2 & H3 & b' & [H4 | H4] & H5).
        -- left. injection H4 as H4 _. rewrite Pp in H4. apply preKeyPath_inj in H4; unfold u32; unfold good_rec in *; lia.
        -- right. exists r'. split; [exact H1 |]. split; [exact H2 |]. split; [exact H3 |]. exists b'. auto.
    + exists ids. split; [exact E |]. split; [exact Nd |]. split; [exact R |]. intros id. rewrite M.
      split; intros (r' & H1 & H2 & H3 & b' & H4 & H5); exists r'; (split; [exact H1 |]); (split; [exact H2 |]); (split; [exact H3 |]); exists b'.
      * split; [right; exact H4 | exact H5].
      * split; [| exact H5]. destruct H4 as [[= -> ->] | H4]; [discriminate D | exact H4].
Qed.

Lemma inv_write fs id r iv fs' : inv fs -> iv_ok iv -> good_rec r -> pkr_id r = id -> id < 10 ^ 9 ->
  StorePreKey C cf iv fs id r = Ok fs' -> inv fs'.
Proof.
  intros (N & F) IV G <- L E. unfold StorePreKey, writeFile in E.
  destruct (st_encrypt C cf iv (pkr_serialize r)) as [ct | |] eqn:A; cbn [bind] in E; try discriminate. injection E as <-.
  apply (decrypt_encrypt C OK cf iv) in A; [| apply rec_wf; exact G | exact IV].
  assert (SUB : forall e, In e (raw_remove fs (preKeyPath (pkr_id r))) -> In e fs /\ fst e <> preKeyPath (pkr_id r)).
  { intros e I. apply filter_In in I as (I & X). split; [exact I |]. intros Y. rewrite Y, path_eqb_refl in X. discriminate. }
  split.
  - cbn [map fst raw_write]. constructor.
    + intros I. apply in_map_iff in I as (e & X & Y). apply SUB in Y as (_ & Y). congruence.
    + unfold raw_remove. clear - N. induction fs as [| e t IH]; cbn [filter map]; [constructor |]. inversion N; subst.
      destruct (negb _); cbn [map]; [constructor; [| auto] | auto]. intros X. apply H1. apply in_map_iff in X as (y & Y & Z).
      apply filter_In in Z as (Z & _). rewrite <- Y. apply in_map. exact Z.
  - apply Forall_cons.
    + intros _. exists r. cbn [fst snd preKeyPath]. auto.
    + apply Forall_forall. intros e I. apply SUB in I as (I & _). rewrite Forall_forall in F. auto.
Qed.
Lemma inv_remove fs p : inv fs -> inv (raw_remove fs p).
Proof.
  intros (N & F). split.
  - unfold raw_remove. clear - N. induction fs as [| e t IH]; cbn [filter map]; [constructor |]. inversion N; subst.
    destruct (negb _); cbn [map]; [constructor; [| auto] | auto]. intros X. apply H1. apply in_map_iff in X as (y & Y & Z).
    apply filter_In in Z as (Z & _). rewrite <- Y. apply in_map. exact Z.
  - apply Forall_forall. intros e I. apply filter_In in I as (I & _). rewrite Forall_forall in F. auto.
Qed.
Lemma inv_other fs p b : inv fs -> fst p <> DPreKeys -> inv (raw_write fs p b).
Proof.
  intros I Np. pose proof (inv_remove fs p I) as (N & F). split.
  - cbn [map raw_write fst]. constructor; [| exact N]. intros X. apply in_map_iff in X as (e & E & Y).
    apply filter_In in Y as (_ & Y). rewrite E, path_eqb_refl in Y. discriminate.
  - apply Forall_cons; [| exact F]. intros E. contradiction.
Qed.

Lemma land24 r : 0 <= randID r <= 16777215.
Proof. unfold randID. change (Z.land r 16777215) with (Z.land r (Z.ones 24)). rewrite Z.land_ones by lia. lia. Qed.

Lemma inv_batch n : forall i start kps ivs fs fs', inv fs -> (forall i, goodkp (kps i)) -> (forall i, iv_ok (ivs i)) ->
  0 <= start <= 16777215 -> (i + n <= 100)%nat -> batch C cf n i start kps ivs fs = Ok fs' -> inv fs'.
Proof.
  induction n as [| n IH]; intros i start kps ivs fs fs' I K V S L; cbn [batch]; [intros [= <-]; exact I |].
  destruct (generatePreKey C cf (ivs i) fs ((start + Z.of_nat i) mod 2 ^ 32) (kps i)) as [f | |] eqn:E; cbn [bind]; try discriminate.
  intros B. eapply IH; [| exact K | exact V | exact S | | exact B]; [| lia].
  destruct (K i) as (K1 & K2 & K3 & K4). pose proof (Z.mod_pos_bound (start + Z.of_nat i) (2 ^ 32) ltac:(lia)).
  eapply inv_write; [exact I | apply V | | | | exact E]; [split; [| split; [| split; [| split]]]; assumption | reflexivity |].
  rewrite Z.mod_small by lia. lia.
Qed.
Lemma inv_gen r kps ivs fs fs' : inv fs -> (forall i, goodkp (kps i)) -> (forall i, iv_ok (ivs i)) ->
  generatePreKeys C cf r kps ivs fs = Ok fs' -> inv fs'.
Proof.
  intros I K V E. unfold generatePreKeys in E. destruct (batch _ _ _ _ _ _ _ _) as [f | |] eqn:B; cbn [bind] in E; try discriminate.
  destruct (K preKeyBatchSize) as (K1 & K2 & K3 & K4).
  eapply inv_write; [| apply V | | | | exact E].
  - eapply inv_batch; [exact I | exact K | exact V | apply land24 | | exact B]. unfold preKeyBatchSize. lia.
  - split; [| split; [| split; [| split]]]; try assumption. cbn [pkr_id]. unfold lastResortPreKeyID. lia.
  - reflexivity.
  - unfold lastResortPreKeyID. lia.
Qed.

(* ---------- histories of the directory ---------- *)

(* any number of generations, of uses of prekeys and of writes of other files *)
Inductive pk_history : files -> Prop :=
| ph_start fs : NoDup (map fst fs) -> (forall e, In e fs -> fst (fst e) <> DPreKeys) -> pk_history fs
| ph_generate fs r kps ivs fs' : pk_history fs -> (forall i, goodkp (kps i)) -> (forall i, iv_ok (ivs i)) ->
    generatePreKeys C cf r kps ivs fs = Ok fs' -> pk_history fs'
| ph_use fs id : pk_history fs -> pk_history (RemovePreKey fs id)
| ph_other fs p b : pk_history fs -> fst p <> DPreKeys -> pk_history (raw_write fs p b)
| ph_other_removed fs p : pk_history fs -> pk_history (raw_remove fs p).
Lemma history_inv fs : pk_history fs -> inv fs.
Proof.
  induction 1; eauto using inv_gen, inv_remove, inv_other.
  - split; [assumption |]. apply Forall_forall. intros e I E. exfalso. exact (H0 e I E).
Qed.

(* ---------- publication ---------- *)

Lemma load_ok fs ids : inv fs -> (forall id, In id ids -> 0 <= id < 10 ^ 9) ->
  (forall id, In id ids -> exists r, pkr_id r = id /\ good_rec r /\ LoadPreKey C cf fs id = Ok r) ->
  exists rs, load_names C cf fs (map pad9 ids) = Ok (map Some rs) /\ map pkr_id rs = ids /\
    Forall (fun r => good_rec r /\ LoadPreKey C cf fs (pkr_id r) = Ok r) rs.
Proof.
  intros I. induction ids as [| id t IH]; intros R L.
  - exists []. split; [reflexivity |]. split; [reflexivity | constructor].
  - destruct IH as (rs & E & M & F); [intros; apply R; now right | intros; apply L; now right |].
    destruct (L id (or_introl eq_refl)) as (r & Hr & G & E').
    exists (r :: rs). cbn [map load_names]. rewrite sscanf_pad9 by (specialize (R id (or_introl eq_refl)); lia). cbn [bind].
    rewrite E'. cbn [bind]. rewrite E. cbn [bind]. split; [reflexivity |]. split; [congruence |].
    constructor; [| exact F]. rewrite Hr. auto.
Qed.
Definition ent (r : prekey_rec) : entity := (pkr_id r, encodeKey (pkr_pub r)).
Lemma entities_ok rs : entities (map Some rs) = Ok (map ent rs).
Proof. induction rs as [| r t IH]; [reflexivity |]. cbn [map entities generatepreKeyEntity bind]. rewrite IH. reflexivity. Qed.

Lemma state_ok fs ids rs : loadPreKeys C cf fs = Ok (map Some rs) -> map pkr_id rs = ids -> ids <> [] ->
  exists st, generatePreKeyState C cf fs = Ok st /\ ps_keys st ++ [ps_last st] = map ent rs.
Proof.
  intros E M N. unfold generatePreKeyState. rewrite E. cbn [bind].
  destruct rs as [| r t] using rev_ind; [cbn in M; congruence |]. clear IHt.
  rewrite map_app. cbn [map]. rewrite removelast_last, last_last, entities_ok. cbn [bind generatepreKeyEntity].
  destruct (map Some t ++ [Some r]) eqn:X; [destruct t; discriminate X |].
  eexists. split; [reflexivity |]. cbn [ps_keys ps_last]. rewrite map_app. reflexivity.
Qed.

(* Whenever some prekey is stored, the upload can be made; it names each stored prekey exactly once, in
   ascending order, with its public key, and nothing else. *)
Lemma upload_inv fs : inv fs ->
  (forall id, exists_file fs (preKeyPath id) = false) /\ generatePreKeyState C cf fs = Panic \/
  exists st, generatePreKeyState C cf fs = Ok st /\
    StronglySorted Z.lt (map fst (ps_keys st ++ [ps_last st])) /\
    forall id key, In (id, key) (ps_keys st ++ [ps_last st]) <->
      exists r, 0 <= id < 2 ^ 32 /\ LoadPreKey C cf fs id = Ok r /\ key = encodeKey (pkr_pub r).
Proof.
  intros I. destruct (inv_ids fs I) as (ids & E & Nd & R & M).
  assert (NM : names fs DPreKeys = map pad9 (sorted_ids ids)).
  { rewrite <- (names_sorted ids R), <- E. reflexivity. }
  assert (LD : forall id, In id ids -> exists r, pkr_id r = id /\ good_rec r /\ LoadPreKey C cf fs id = Ok r).
  { intros id X. apply M in X as (r & <- & G & L & b & IN & D). exists r. split; [reflexivity |]. split; [exact G |].
    eapply inv_load; [exact I | exact IN | exact G | exact L | reflexivity | exact D]. }
  destruct (load_ok fs (sorted_ids ids) I) as (rs & L & Mr & F).
  { intros id X. apply (proj1 (sorted_in _ _)) in X. rewrite Forall_forall in R. apply R. exact X. }
  { intros id X. apply (proj1 (sorted_in _ _)) in X. auto. }
  destruct ids as [| i0 it].
  - left. split.
    + intros id. unfold exists_file. destruct (raw_read fs (preKeyPath id)) as [b |] eqn:Q; [| reflexivity]. exfalso.
      apply raw_read_in in Q. assert (X : In (pad9 id) (map (fun e : path * bytes => snd (fst e)) (filter (fun e => dir_eqb (fst (fst e)) DPreKeys) fs))).
      { change (pad9 id) with (snd (fst (preKeyPath id, b))). apply (in_map (fun e : path * bytes => snd (fst e))). apply filter_In. split; [exact Q | reflexivity]. }
      rewrite E in X. destruct X.
    + unfold generatePreKeyState, loadPreKeys. rewrite NM. reflexivity.
  - right. set (ids := i0 :: it) in *.
    destruct (state_ok fs (sorted_ids ids) rs) as (st & S1 & S2).
    { unfold loadPreKeys. rewrite NM. exact L. } { exact Mr. }
    { intros X. assert (Y : In i0 (sorted_ids ids)) by (apply (proj2 (sorted_in i0 ids)); now left). rewrite X in Y. destruct Y. }
    exists st. split; [exact S1 |]. rewrite S2.
    assert (IDS : map fst (map ent rs) = sorted_ids ids) by (rewrite map_map; cbn [ent fst]; exact Mr).
    rewrite IDS. split; [apply sorted_sorted; exact Nd |].
    intros id key. rewrite in_map_iff. split.
    + intros (r & [= <- <-] & X). rewrite Forall_forall in F. destruct (F r X) as (G & LL). exists r. split; [apply G |]. auto.
    + intros (r & U & LL & ->).
      assert (IN : In id (sorted_ids ids)).
      { apply (proj2 (sorted_in id ids)), M. unfold LoadPreKey, readFile in LL. destruct (raw_read fs (preKeyPath id)) as [b |] eqn:Q; [| discriminate LL].
        apply raw_read_in in Q. destruct I as (N & FF). rewrite Forall_forall in FF. destruct (FF _ Q eq_refl) as (r' & G' & L' & P' & D').
        cbn [fst snd preKeyPath] in P', D'. apply pad9_inj in P'; [| lia | unfold good_rec in G'; lia].
        exists r'. split; [congruence |]. split; [exact G' |]. split; [congruence |]. exists b. auto. }
      rewrite <- Mr in IN. apply in_map_iff in IN as (r' & E1 & E2). rewrite Forall_forall in F. destruct (F r' E2) as (_ & L2).
      rewrite E1 in L2. rewrite L2 in LL. injection LL as <-. exists r'. unfold ent. rewrite E1. auto.
Qed.
Theorem C54_upload_is_the_store fs : pk_history fs ->
  (forall id, exists_file fs (preKeyPath id) = false) /\ generatePreKeyState C cf fs = Panic \/
  exists st, generatePreKeyState C cf fs = Ok st /\
    StronglySorted Z.lt (map fst (ps_keys st ++ [ps_last st])) /\
    forall id key, In (id, key) (ps_keys st ++ [ps_last st]) <->
      exists r, 0 <= id < 2 ^ 32 /\ LoadPreKey C cf fs id = Ok r /\ key = encodeKey (pkr_pub r).
Proof. intros H. apply upload_inv. exact (history_inv fs H). Qed.

(* ---------- right after the generation ---------- *)

Lemma load_store iv fs id r fs' : iv_ok iv -> good_rec r -> pkr_id r = id -> StorePreKey C cf iv fs id r = Ok fs' ->
  LoadPreKey C cf fs' id = Ok r /\ forall j, 0 <= j < 2 ^ 32 -> j <> id -> LoadPreKey C cf fs' j = LoadPreKey C cf fs j.
Proof.
  intros IV G <- E. unfold StorePreKey in E.
  destruct (readFile_write C OK cf iv fs _ _ fs' (rec_wf r G) IV E) as (R & F & _). split.
  - unfold LoadPreKey. rewrite R. cbn [bind]. apply prekey_round_trip; [unfold u32; unfold good_rec in G; lia | apply rec_small; exact G].
  - intros j J N. unfold LoadPreKey. rewrite (readFile_frame C cf fs fs'); [reflexivity |]. apply F. intros X.
    apply preKeyPath_inj in X; [contradiction | unfold u32; lia | unfold u32; unfold good_rec in G; lia].
Qed.
Definition batch_rec (start : Z) (kps : nat -> keypair) (i : nat) : prekey_rec :=
  mkPkr (start + Z.of_nat i) (snd (kps i)) (fst (kps i)).
Lemma load_batch n : forall i start kps ivs fs fs', (forall i, goodkp (kps i)) -> (forall i, iv_ok (ivs i)) ->
  0 <= start <= 16777215 -> (i + n <= 100)%nat -> batch C cf n i start kps ivs fs = Ok fs' ->
  (forall k, (i <= k < i + n)%nat -> LoadPreKey C cf fs' (start + Z.of_nat k) = Ok (batch_rec start kps k)) /\
  (forall j, 0 <= j < 2 ^ 32 -> ~ (start + Z.of_nat i <= j < start + Z.of_nat (i + n)) -> LoadPreKey C cf fs' j = LoadPreKey C cf fs j).
Proof.
  induction n as [| n IH]; intros i start kps ivs fs fs' K V ST L; cbn [batch].
  - intros [= <-]. split; [intros; lia | reflexivity].
  - destruct (generatePreKey C cf (ivs i) fs ((start + Z.of_nat i) mod 2 ^ 32) (kps i)) as [f | |] eqn:E; cbn [bind]; try discriminate.
    intros B. rewrite Z.mod_small in E by lia. destruct (K i) as (K1 & K2 & K3 & K4).
    apply load_store in E as (E1 & E2); [| apply V | split; [| split; [| split; [| split]]]; try assumption; cbn [pkr_id]; lia | reflexivity].
    destruct (IH (S i) start kps ivs f fs' K V ST ltac:(lia) B) as (B1 & B2). split.
    + intros k Hk. destruct (Nat.eq_dec k i) as [-> | Nk]; [| apply B1; lia].
      rewrite B2 by lia. exact E1.
    + intros j J N. rewrite B2 by lia. apply E2; lia.
Qed.
Lemma load_generated r kps ivs fs fs' : (forall i, goodkp (kps i)) -> (forall i, iv_ok (ivs i)) ->
  (forall e, In e fs -> fst (fst e) <> DPreKeys) ->
  generatePreKeys C cf r kps ivs fs = Ok fs' ->
  (forall k, (k < 100)%nat -> randID r + Z.of_nat k <> 16777215 -> LoadPreKey C cf fs' (randID r + Z.of_nat k) = Ok (batch_rec (randID r) kps k)) /\
  LoadPreKey C cf fs' 16777215 = Ok (mkPkr 16777215 (snd (kps 100%nat)) (fst (kps 100%nat))) /\
  (forall j x, 0 <= j < 2 ^ 32 -> LoadPreKey C cf fs' j = Ok x -> j = 16777215 \/ randID r <= j < randID r + 100).
Proof.
  intros K V N E. unfold generatePreKeys in E. pose proof (land24 r) as R. destruct (batch _ _ _ _ _ _ _ _) as [f | |] eqn:B; cbn [bind] in E; try discriminate.
  unfold preKeyBatchSize in *. destruct (load_batch 100 0 (randID r) kps ivs fs f K V R ltac:(lia) B) as (B1 & B2).
  destruct (K 100%nat) as (K1 & K2 & K3 & K4).
  apply load_store in E as (E1 & E2); [| apply V | split; [| split; [| split; [| split]]]; try assumption; cbn [pkr_id]; unfold lastResortPreKeyID; lia | reflexivity].
  unfold lastResortPreKeyID in *. split; [| split; [exact E1 |]].
  - intros k Hk Nk. rewrite E2 by lia. apply B1. lia.
  - intros j x J L. destruct (Z.eq_dec j 16777215); [auto |]. rewrite E2 in L by lia.
    destruct (Z_lt_ge_dec j (randID r)); [| destruct (Z_lt_ge_dec j (randID r + 100)); [lia |]];
    (rewrite B2 in L by lia; exfalso; unfold LoadPreKey, readFile in L;
     destruct (raw_read fs (preKeyPath j)) as [b |] eqn:Q; [| discriminate L]; apply raw_read_in in Q; exact (N _ Q eq_refl)).
Qed.

Lemma sorted_unique l : forall m, StronglySorted Z.lt l -> StronglySorted Z.lt m -> (forall x, In x l <-> In x m) -> l = m.
Proof.
  induction l as [| a l IH]; intros m Sl Sm E.
  - destruct m as [| b m]; [reflexivity |]. exfalso. apply (proj2 (E b)). now left.
  - destruct m as [| b m]; [exfalso; apply (proj1 (E a)); now left |].
    inversion Sl as [| ? ? Sl' Fl]; inversion Sm as [| ? ? Sm' Fm]; subst. rewrite Forall_forall in Fl, Fm.
    assert (a = b).
    { destruct (proj1 (E a) (or_introl eq_refl)) as [-> | Ha]; [reflexivity |]. destruct (proj2 (E b) (or_introl eq_refl)) as [-> | Hb]; [reflexivity |].
      specialize (Fl b Hb). specialize (Fm a Ha). lia. }
    subst b. f_equal. apply IH; auto. intros x. split; intros X.
    + destruct (proj1 (E x) (or_intror X)) as [-> | Y]; [specialize (Fl _ X); lia | exact Y].
    + destruct (proj2 (E x) (or_intror X)) as [-> | Y]; [specialize (Fm _ X); lia | exact Y].
Qed.
Lemma sorted_snoc l x : StronglySorted Z.lt l -> (forall y, In y l -> y < x) -> StronglySorted Z.lt (l ++ [x]).
Proof.
  induction 1 as [| a l S IH F]; intros B; [repeat constructor |]. cbn [app]. constructor.
  - apply IH. intros y Y. apply B. now right.
  - apply Forall_app. split; [exact F |]. constructor; [apply B; now left | constructor].
Qed.
Lemma seq_sorted start n : StronglySorted Z.lt (map (fun i => start + Z.of_nat i) (seq 0 n)).
Proof.
  induction n as [| n IH]; [constructor |]. rewrite seq_S, map_app. cbn [map]. apply sorted_snoc; [exact IH |].
  intros y Y. apply in_map_iff in Y as (i & <- & I). apply in_seq in I. lia.
Qed.

(* After generating into an empty directory: if the random start leaves room below the last-resort id,
   the upload consists of the hundred fresh prekeys in order and of the last-resort key. *)
Theorem C54_published r kps ivs fs fs' :
  (forall i, goodkp (kps i)) -> (forall i, iv_ok (ivs i)) -> NoDup (map fst fs) -> (forall e, In e fs -> fst (fst e) <> DPreKeys) ->
  randID r + 99 < 16777215 ->
  generatePreKeys C cf r kps ivs fs = Ok fs' ->
  generatePreKeyState C cf fs' = Ok
    (mkPks (map (fun i => (randID r + Z.of_nat i, encodeKey (snd (kps i)))) (seq 0 100))
           (16777215, encodeKey (snd (kps 100%nat)))).
Proof.
  intros K V ND N S E. pose proof (land24 r) as R.
  destruct (load_generated r kps ivs fs fs' K V N E) as (L1 & L2 & L3).
  destruct (C54_upload_is_the_store fs') as [(X & _) | (st & E1 & E2 & E3)].
  { eapply ph_generate; [apply ph_start; eassumption | exact K | exact V | exact E]. }
  { exfalso. specialize (X 16777215). unfold exists_file in X. unfold LoadPreKey, readFile in L2.
    destruct (raw_read fs' (preKeyPath 16777215)); [discriminate X | discriminate L2]. }
  rewrite E1. f_equal.
  set (want := map (fun i => randID r + Z.of_nat i) (seq 0 100) ++ [16777215]).
  assert (IDS : map fst (ps_keys st ++ [ps_last st]) = want).
  { apply sorted_unique; [exact E2 | |].
    - apply sorted_snoc; [apply seq_sorted |]. intros y Y. apply in_map_iff in Y as (i & <- & I). apply in_seq in I. lia.
    - intros x. rewrite in_map_iff. unfold want. rewrite in_app_iff, in_map_iff. split.
      + intros ((i, k) & <- & I). apply E3 in I as (x & U & L & _). cbn [fst]. destruct (L3 i x U L) as [-> | B]; [right; now left |].
        left. exists (Z.to_nat (i - randID r)). split; [lia |]. apply in_seq. lia.
      + intros [(i & <- & I) | [<- | []]].
        * apply in_seq in I. exists (randID r + Z.of_nat i, encodeKey (snd (kps i))). split; [reflexivity |]. apply E3.
          eexists. split; [lia |]. split; [apply L1; lia | reflexivity].
        * exists (16777215, encodeKey (snd (kps 100%nat))). split; [reflexivity |]. apply E3. eexists. split; [lia |]. split; [exact L2 | reflexivity]. }
  set (f := fun id => encodeKey (match LoadPreKey C cf fs' id with Ok r => pkr_pub r | _ => [] end)).
  assert (ALL : ps_keys st ++ [ps_last st] = map (fun id => (id, f id)) want).
  { rewrite <- IDS, map_map. rewrite <- (map_id (ps_keys st ++ [ps_last st])) at 1. apply map_ext_in. intros (i, k) I.
    apply E3 in I as (x & _ & L & ->). cbn [fst]. unfold f. rewrite L. reflexivity. }
  unfold want in ALL. rewrite map_app in ALL. cbn [map] in ALL. apply app_inj_tail in ALL as (A1 & A2).
  destruct st as [ks la]. cbn [ps_keys ps_last] in *. f_equal.
  - rewrite A1, map_map. apply map_ext_in. intros i I. apply in_seq in I. unfold f. rewrite L1 by lia. reflexivity.
  - rewrite A2. unfold f. rewrite L2. reflexivity.
Qed.

Lemma last_max l x y : StronglySorted Z.lt (l ++ [x]) -> In y (l ++ [x]) -> y <= x.
Proof.
  induction l as [| a l IH]; cbn [app]; intros S I.
  - destruct I as [-> | []]; lia.
  - inversion S as [| ? ? S' F]; subst. destruct I as [-> | I]; [| auto]. rewrite Forall_forall in F.
    specialize (F x ltac:(apply in_app_iff; right; now left)). lia.
Qed.
(* Otherwise a one-time prekey is announced as the last-resort key and the last-resort key as a one-time
   prekey. *)
Theorem C54_last_resort_mixed_up r kps ivs fs fs' :
  (forall i, goodkp (kps i)) -> (forall i, iv_ok (ivs i)) -> NoDup (map fst fs) -> (forall e, In e fs -> fst (fst e) <> DPreKeys) ->
  16777215 < randID r + 99 ->
  generatePreKeys C cf r kps ivs fs = Ok fs' ->
  exists st, generatePreKeyState C cf fs' = Ok st /\
    ps_last st = (randID r + 99, encodeKey (snd (kps 99%nat))) /\
    In (16777215, encodeKey (snd (kps 100%nat))) (ps_keys st).
Proof.
  intros K V ND N S E. pose proof (land24 r) as R.
  destruct (load_generated r kps ivs fs fs' K V N E) as (L1 & L2 & L3).
  destruct (C54_upload_is_the_store fs') as [(X & _) | (st & E1 & E2 & E3)].
  { eapply ph_generate; [apply ph_start; eassumption | exact K | exact V | exact E]. }
  { exfalso. specialize (X 16777215). unfold exists_file in X. unfold LoadPreKey, readFile in L2.
    destruct (raw_read fs' (preKeyPath 16777215)); [discriminate X | discriminate L2]. }
  exists st. split; [exact E1 |].
  specialize (L1 99%nat ltac:(lia) ltac:(lia)). change (Z.of_nat 99) with 99 in L1.
  assert (I99 : In (randID r + 99, encodeKey (snd (kps 99%nat))) (ps_keys st ++ [ps_last st])).
  { apply E3. eexists. split; [lia |]. split; [exact L1 | reflexivity]. }
  assert (LR : In (16777215, encodeKey (snd (kps 100%nat))) (ps_keys st ++ [ps_last st])).
  { apply E3. eexists. split; [lia |]. split; [exact L2 | reflexivity]. }
  assert (LAST : fst (ps_last st) = randID r + 99).
  { rewrite map_app in E2. cbn [map] in E2.
    pose proof (last_max _ _ (randID r + 99) E2) as Q. rewrite <- (map_app fst _ [ps_last st]) in Q.
    specialize (Q (in_map fst _ _ I99)).
    destruct (ps_last st) as (i, k) eqn:PL. cbn [fst] in *.
    destruct (proj1 (E3 i k)) as (x & U & L & _); [apply in_app_iff; right; now left |].
    destruct (L3 i x U L); lia. }
  split.
  - destruct (ps_last st) as (i, k) eqn:PL. cbn [fst] in LAST. subst i.
    destruct (proj1 (E3 (randID r + 99) k)) as (x & _ & L & ->); [apply in_app_iff; right; now left |].
    rewrite L1 in L. injection L as <-. reflexivity.
  - apply in_app_iff in LR as [LR | [LR | []]]; [exact LR |]. rewrite LR in LAST. cbn [fst] in LAST. lia.
Qed.
End P.

(* ---------- examples ---------- *)

Definition ex_kps (i : nat) : keypair := (repeat (Z.of_nat i) 32, repeat (Z.of_nat i + 100) 32).
Definition ex_ivs (i : nat) : bytes := repeat 3 16.
Definition ex_conf : sconf := mkConf true [] [].
(* kps is given for all i; those beyond the batch do not matter *)
Definition ex_kps' (i : nat) : keypair := ex_kps (Nat.modulo i 101).
Lemma ex_good i : goodkp (ex_kps' i).
Proof.
  unfold ex_kps', ex_kps. pose proof (Nat.mod_upper_bound i 101 ltac:(lia)) as L. set (k := Nat.modulo i 101) in *. clearbody k.
  unfold goodkp. cbn [fst snd].
  split; [apply repeat_length |]. split; [| split; [apply repeat_length |]];
  apply Forall_forall; intros x X; apply repeat_spec in X; subst; unfold isbyte; lia.
Qed.
Lemma ex_iv i : iv_ok (ex_ivs i).
Proof. split; [reflexivity |]. apply Forall_forall. intros x X. apply repeat_spec in X. subst. unfold isbyte. lia. Qed.
Lemma ex_conf_ok : conf_ok ex_conf. Proof. left. reflexivity. Qed.

Lemma generate_total C cf r kps ivs fs : conf_ok cf -> (forall i, iv_ok (ivs i)) -> exists fs', generatePreKeys C cf r kps ivs fs = Ok fs'.
Proof.
  intros CF V.
  assert (B : forall n i start fs, exists f, batch C cf n i start kps ivs fs = Ok f).
  { induction n as [| n IH]; intros i start f; cbn [batch]; [eauto |]. unfold generatePreKey at 1, StorePreKey at 1.
    destruct (writeFile_total C cf CF (ivs i) f (preKeyPath ((start + Z.of_nat i) mod 2 ^ 32))
      (pkr_serialize (mkPkr ((start + Z.of_nat i) mod 2 ^ 32) (snd (kps i)) (fst (kps i)))) (V i)) as (f' & ->). cbn [bind]. apply IH. }
  unfold generatePreKeys. destruct (B preKeyBatchSize 0%nat (randID r) fs) as (f & ->). cbn [bind]. apply writeFile_total; [exact CF | apply V].
Qed.

Example C54_example : exists fs', generatePreKeys toy ex_conf 4660 ex_kps' ex_ivs [] = Ok fs' /\
  generatePreKeyState toy ex_conf fs' = Ok
    (mkPks (map (fun i => (4660 + Z.of_nat i, encodeKey (repeat (Z.of_nat (i mod 101) + 100) 32))) (seq 0 100))
           (16777215, encodeKey (repeat 200 32))).
Proof.
  destruct (generate_total toy ex_conf 4660 ex_kps' ex_ivs [] ex_conf_ok ex_iv) as (fs' & E). exists fs'. split; [exact E |].
  exact (C54_published toy toy_ok ex_conf 4660 ex_kps' ex_ivs [] fs' ex_good ex_iv (NoDup_nil _) (fun _ x => match x with end) eq_refl E).
Qed.

(* The claim fails for some random start: the upload names another key as last resort. *)
Theorem C54_last_resort_refuted : exists r kps ivs fs' st,
  (forall i, goodkp (kps i)) /\ (forall i, iv_ok (ivs i)) /\
  generatePreKeys toy ex_conf r kps ivs [] = Ok fs' /\ generatePreKeyState toy ex_conf fs' = Ok st /\
  fst (ps_last st) <> 16777215.
Proof.
  destruct (generate_total toy ex_conf 4294967295 ex_kps' ex_ivs [] ex_conf_ok ex_iv) as (fs' & E).
  destruct (C54_last_resort_mixed_up toy toy_ok ex_conf 4294967295 ex_kps' ex_ivs [] fs' ex_good ex_iv
    (NoDup_nil _) (fun _ x => match x with end) eq_refl E) as (st & E1 & E2 & _).
  exists 4294967295, ex_kps', ex_ivs, fs', st. split; [exact ex_good |]. split; [exact ex_iv |]. split; [exact E |]. split; [exact E1 |].
  rewrite E2. discriminate.
Qed.

Print Assumptions C54_upload_is_the_store. Print Assumptions C54_published. Print Assumptions C54_last_resort_mixed_up.
Print Assumptions C54_last_resort_refuted.
