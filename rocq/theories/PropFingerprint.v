(* C49 and C50: safety numbers. *)
From Coq Require Import ZArith List Lia Bool Permutation.
From Verif Require Import Bytes Res Wire WireProofs Crypto Messages Session RecordCodec RecordCodecProofs Decimal Fingerprint.
Import ListNotations.
Open Scope Z_scope.
Ltac Zify.zify_post_hook ::= Z.to_euclidean_division_equations.

(* ---------- specification ---------- *)

(* what is known about SHA-512 *)
Definition hash64 (H : bytes -> bytes) : Prop := forall m, length (H m) = 64%nat /\ wfb (H m).

(* five decimal digits of a number below 100000 *)
Definition five_digits (v : Z) (d : bytes) : Prop :=
  length d = 5%nat /\ Forall (fun c => 48 <= c <= 57) d /\
  fold_left (fun a c => a * 10 + (c - 48)) d 0 = v.

(* the six blocks of one half: each of the six groups of five bytes, big-endian, modulo 100000 *)
Definition half_blocks (h : bytes) (bl : list bytes) : Prop :=
  length bl = 6%nat /\
  forall i, (i < 6)%nat -> five_digits (be_dec (firstn 5 (skipn (5 * i) h)) mod 100000) (nth i bl []).

(* the scannable half of a side: 5200 rounds of hashing, starting from two zero bytes, key and identifier *)
Definition spec_half (H : bytes -> bytes) (ident key : bytes) : bytes :=
  firstn 32 (Nat.iter (Z.to_nat 5200) (fun h => H (h ++ 5 :: key)) ([0; 0; 5] ++ key ++ ident)).

(* ---------- numbers ---------- *)

Lemma lor_add n x y : 0 <= n -> x mod 2 ^ n = 0 -> 0 <= y < 2 ^ n -> Z.lor x y = x + y.
Proof.
  intros Hn Hx Hy.
  assert (L : Z.land x y = 0).
  { apply Z.bits_inj'. intros m Hm. rewrite Z.land_spec, Z.bits_0.
    destruct (Z.ltb_spec m n) as [Lt | Ge].
    - replace x with (x / 2 ^ n * 2 ^ n) by (pose proof (Z.div_mod x (2 ^ n) ltac:(lia)); lia).
      rewrite Z.mul_pow2_bits_low by lia. reflexivity.
    - rewrite <- (Z.mod_small y (2 ^ n)) by lia. rewrite Z.mod_pow2_bits_high by lia. apply andb_false_r. }
  rewrite <- Z.lxor_lor by exact L. symmetry. apply Z.add_nocarry_lxor. exact L.
Qed.

Lemma five_bytes a b c d e : isbyte a -> isbyte b -> isbyte c -> isbyte d -> isbyte e ->
  Z.lor (Z.lor (Z.lor (Z.lor (Z.shiftl (Z.land a 255) 32) (Z.shiftl (Z.land b 255) 24)) (Z.shiftl (Z.land c 255) 16))
         (Z.shiftl (Z.land d 255) 8)) (Z.land e 255) = be_dec [a; b; c; d; e].
Proof.
  unfold isbyte. intros Ha Hb Hc Hd He.
  assert (L : forall x, 0 <= x < 256 -> Z.land x 255 = x).
  { intros x Hx. change 255 with (Z.ones 8). rewrite Z.land_ones by lia. apply Z.mod_small. lia. }
  rewrite !L, !Z.shiftl_mul_pow2 by lia.
  change (2 ^ 32) with 4294967296. change (2 ^ 24) with 16777216. change (2 ^ 16) with 65536. change (2 ^ 8) with 256.
  rewrite (lor_add 32 _ (b * 16777216)) by (change (2 ^ 32) with 4294967296; lia).
  rewrite (lor_add 24 _ (c * 65536)) by (change (2 ^ 24) with 16777216; lia).
  rewrite (lor_add 16 _ (d * 256)) by (change (2 ^ 16) with 65536; lia).
  rewrite (lor_add 8 _ e) by (change (2 ^ 8) with 256; lia).
  unfold be_dec. cbn [rev app le_dec]. lia.
Qed.

Lemma fold_undec l : forall acc, Forall (fun c => is_digit c = true) l ->
  undec acc l = Some (fold_left (fun a c => a * 10 + (c - 48)) l acc).
Proof.
  induction l as [| c t IH]; intros acc F; [reflexivity |].
  inversion F; subst. cbn [undec fold_left]. rewrite H1. apply IH; assumption.
Qed.

Lemma pad5_five v : 0 <= v < 100000 -> five_digits v (pad5 v).
Proof.
  intros Hv.
  assert (L : (length (udec v) <= 5)%nat) by (apply udec_fuel_length; change (10 ^ Z.of_nat 5) with 100000; lia).
  assert (D : Forall (fun c => is_digit c = true) (pad5 v)).
  { unfold pad5. apply Forall_app. split; [| apply udec_digits; lia].
    apply Forall_forall. intros x Hx. apply repeat_spec in Hx. subst. reflexivity. }
  split; [| split].
  - unfold pad5. rewrite app_length, repeat_length. lia.
  - eapply Forall_impl; [| exact D]. intros c Hc. unfold is_digit in Hc. apply andb_true_iff in Hc. lia.
  - pose proof (fold_undec _ 0 D) as E. unfold pad5 in E at 1. rewrite undec_zeros, undec_udec in E by lia. congruence.
Qed.

Lemma chunk_ok fp off : wfb fp -> (off + 5 <= length fp)%nat ->
  getEncodedChunk fp off = Ok (pad5 (be_dec (firstn 5 (skipn off fp)) mod 100000)).
Proof.
  intros W L. unfold getEncodedChunk, byteArray5ToLong.
  pose proof (wfb_skipn off fp W) as WS. pose proof (skipn_length off fp) as SL.
  destruct (skipn off fp) as [| a [| b [| c [| d [| e t]]]]]; cbn [length] in SL; try lia.
  inversion WS as [| ? ? A1 W1]; inversion W1 as [| ? ? A2 W2]; inversion W2 as [| ? ? A3 W3];
    inversion W3 as [| ? ? A4 W4]; inversion W4 as [| ? ? A5 W5]; subst.
  rewrite five_bytes by assumption. reflexivity.
Qed.

Definition blocks_of (fp : bytes) : list bytes :=
  map (fun o => pad5 (be_dec (firstn 5 (skipn o fp)) mod 100000)) [0; 5; 10; 15; 20; 25]%nat.
Lemma numbers_ok fp : wfb fp -> (30 <= length fp)%nat -> getFingerprintNumbersFor fp = Ok (blocks_of fp).
Proof. intros W L. unfold getFingerprintNumbersFor. rewrite !chunk_ok by (auto; lia). reflexivity. Qed.

Lemma slice_first a b n (l : bytes) : (a + b <= n)%nat -> firstn b (skipn a (firstn n l)) = firstn b (skipn a l).
Proof. intros L. rewrite skipn_firstn_comm, firstn_firstn. f_equal. lia. Qed.

Lemma blocks_half fp : half_blocks (firstn 32 fp) (blocks_of fp).
Proof.
  split; [reflexivity |]. intros i Hi.
  assert (E : nth i (blocks_of fp) [] = pad5 (be_dec (firstn 5 (skipn (5 * i) fp)) mod 100000)).
  { do 6 (destruct i as [| i]; [reflexivity |]). lia. }
  rewrite E, slice_first by lia. apply pad5_five. lia.
Qed.

(* ---------- comparison ---------- *)

Lemma blt_irrefl a : blt a a = false.
Proof. induction a as [| x t IH]; [reflexivity |]. cbn [blt]. rewrite Z.eqb_refl, IH, Z.ltb_irrefl. reflexivity. Qed.
Lemma blt_antisym a : forall b, length a = length b -> beq a b = false -> blt a b = negb (blt b a).
Proof.
  induction a as [| x t IH]; destruct b as [| y u]; cbn [length]; intros L N; try discriminate.
  cbn [beq] in N. cbn [blt]. rewrite (Z.eqb_sym y x). destruct (x =? y) eqn:E.
  - apply Z.eqb_eq in E. subst. rewrite Z.ltb_irrefl. apply IH; [lia | exact N].
  - apply Z.eqb_neq in E. destruct (Z.ltb_spec x y), (Z.ltb_spec y x); reflexivity || lia.
Qed.
Lemma scompare_opp a b : length a = length b -> scompare b a = - scompare a b.
Proof.
  intros L. unfold scompare. rewrite (beq_sym b a). destruct (beq a b) eqn:E; [reflexivity |].
  rewrite (blt_antisym a b L E). destruct (blt b a); reflexivity.
Qed.

Definition lens5 (l : list bytes) : Prop := Forall (fun b => length b = 5%nat) l.
Lemma compare_opp a : forall b, length a = length b -> lens5 a -> lens5 b -> a <> b ->
  exists r, r <> 0 /\ compareFingerprintBlocks a b = Ok r /\ compareFingerprintBlocks b a = Ok (- r).
Proof.
  induction a as [| x t IH]; destruct b as [| y u]; cbn [length]; intros L La Lb N; try discriminate; [congruence |].
  inversion La; inversion Lb; subst.
  assert (LL : length t = length u) by lia.
  cbn [compareFingerprintBlocks length]. rewrite LL, Nat.eqb_refl, (scompare_opp x y) by congruence.
  destruct (beq x y) eqn:E.
  - apply beq_eq in E. subst. unfold scompare. rewrite beq_refl. cbn [Z.eqb Z.opp].
    apply IH; auto. congruence.
  - assert (S0 : scompare x y <> 0) by (unfold scompare; rewrite E; destruct (blt x y); discriminate).
    replace (scompare x y =? 0) with false by (symmetry; apply Z.eqb_neq; exact S0).
    replace (- scompare x y =? 0) with false by (symmetry; apply Z.eqb_neq; lia).
    exists (scompare x y). auto.
Qed.
Lemma compare_same a : compareFingerprintBlocks a a = Panic.
Proof.
  induction a as [| x t IH]; [reflexivity |]. cbn [compareFingerprintBlocks]. rewrite Nat.eqb_refl.
  unfold scompare. rewrite beq_refl. exact IH.
Qed.

Lemma blocks_lens fp : lens5 (blocks_of fp).
Proof.
  apply Forall_forall. intros b Hb. apply in_map_iff in Hb as (o & <- & _). apply pad5_five. lia.
Qed.

Lemma create_cases l r : wfb l -> wfb r -> (32 <= length l)%nat -> (32 <= length r)%nat ->
  (blocks_of l = blocks_of r /\ CreateFingerprintNumbers l r = Panic) \/
  (blocks_of l <> blocks_of r /\ exists nums, CreateFingerprintNumbers l r = Ok nums /\ CreateFingerprintNumbers r l = Ok nums
     /\ (nums = blocks_of l ++ blocks_of r \/ nums = blocks_of r ++ blocks_of l)).
Proof.
  intros Wl Wr Ll Lr. unfold CreateFingerprintNumbers. rewrite !numbers_ok by (auto; lia). cbn [bind].
  destruct (list_eq_dec (list_eq_dec Z.eq_dec) (blocks_of l) (blocks_of r)) as [E | N].
  - left. split; [exact E |]. rewrite E, compare_same. reflexivity.
  - right. split; [exact N |].
    destruct (compare_opp (blocks_of l) (blocks_of r) eq_refl (blocks_lens l) (blocks_lens r) N) as (c & C0 & E1 & E2).
    rewrite E1, E2. cbn [bind].
    destruct (Z.leb_spec c 0), (Z.leb_spec (- c) 0); try lia; eexists; (split; [reflexivity |]); (split; [reflexivity |]); auto.
Qed.

(* ---------- hashing ---------- *)

Lemma repeat_iter H n : forall h k, repeatedHashing H n h k = Nat.iter n (fun h => H (h ++ k)) h.
Proof.
  induction n as [| n IH]; intros h k; [reflexivity |]. cbn [repeatedHashing]. rewrite IH.
  clear IH. induction n as [| n IH]; [reflexivity |]. cbn [Nat.iter nat_rect] in *. unfold Nat.iter in *. cbn [nat_rect]. rewrite IH. reflexivity.
Qed.
Lemma repeated_hash H n h k : hash64 H -> length (repeatedHashing H (S n) h k) = 64%nat /\ wfb (repeatedHashing H (S n) h k).
Proof.
  intros HH. revert h. induction n as [| n IH]; intros h; [apply HH |].
  change (repeatedHashing H (S (S n)) h k) with (repeatedHashing H (S n) (H (h ++ k)) k). apply IH.
Qed.
Lemma fp_hash H id keys : hash64 H ->
  length (getFingerprint H ITERATIONS id keys) = 64%nat /\ wfb (getFingerprint H ITERATIONS id keys).
Proof.
  intros HH. unfold getFingerprint, ITERATIONS. change 5200%nat with (S 5199).
  apply repeated_hash. exact HH.
Qed.
Lemma fp_half H id key : firstn 32 (getFingerprint H ITERATIONS id [key]) = spec_half H id key.
Proof.
  unfold getFingerprint, spec_half. rewrite repeat_iter. unfold getLogicalKeyBytes. cbn [sort_keys insert_key flat_map fp_serialize].
  rewrite app_nil_r. unfold ITERATIONS. replace (Z.to_nat 5200) with 5200%nat; [reflexivity |]. reflexivity.
Qed.

(* ---------- scanning ---------- *)

Lemma scan_create v l r : 0 <= v < 2 ^ 32 -> (32 <= length l)%nat -> (32 <= length r)%nat ->
  exists qr, CreateQRFingerprint v l r = Ok qr /\
  ScanQRFingerprint qr = Ok (Some v, Some (Some (firstn 32 l)), Some (Some (firstn 32 r))).
Proof.
  intros Hv Ll Lr. unfold CreateQRFingerprint.
  replace (32 <=? length l)%nat with true by (symmetry; apply Nat.leb_le; exact Ll).
  replace (32 <=? length r)%nat with true by (symmetry; apply Nat.leb_le; exact Lr). cbn [andb].
  eexists. split; [reflexivity |].
  assert (F : forall b, length b = 32%nat -> parse (marshal (logical_slots b)) = Some (flat (logical_slots b))).
  { intros b Lb. unfold marshal. apply parse_encode. unfold flat, logical_slots. cbn.
    apply Forall_cons; [| apply Forall_nil]. unfold wf_field. cbn. unfold zlen, max_field. lia. }
  assert (SZ : forall b, length b = 32%nat -> zlen (marshal (logical_slots b)) = 34).
  { intros b Lb. do 33 (destruct b as [| ? b]; cbn [length] in Lb; try lia). reflexivity. }
  pose proof (firstn_length 32 l) as F1. pose proof (firstn_length 32 r) as F2.
  assert (Pl := F (firstn 32 l) ltac:(lia)). assert (Pr := F (firstn 32 r) ltac:(lia)).
  assert (Sl := SZ (firstn 32 l) ltac:(lia)). assert (Sr := SZ (firstn 32 r) ltac:(lia)).
  set (lv := firstn 32 l) in *. set (rv := firstn 32 r) in *. clearbody lv rv.
  assert (DL : forall b, get_len 1 (flat (logical_slots b)) = Some b) by reflexivity.
  unfold ScanQRFingerprint, combined_slots, f_msg.
  set (ml := marshal (logical_slots lv)) in *. set (mr := marshal (logical_slots rv)) in *. clearbody ml mr.
  unfold marshal. rewrite parse_encode.
  - unfold flat at 1 2 3. cbn [flat_map map fst snd app].
    unfold g_msg, get_sub. cbn [get_varint get_all Z.eqb Pos.eqb parse_all].
    rewrite Pl, Pr. cbn [option_map]. rewrite !app_nil_r. unfold logical_dec. rewrite !DL.
    rewrite to_u32_id by lia. reflexivity.
  - unfold flat. cbn [flat_map map fst snd app].
    repeat (apply Forall_cons; [unfold wf_field, max_field; cbn [fst snd wf_val]; lia |]). apply Forall_nil.
Qed.

(* ---------- C49 ---------- *)

Lemma simple_ok H v lid lb (lk : bytes) rid rb (rk : bytes) : length lk = 32%nat -> length rk = 32%nat ->
  CreateFingerprintSimple H v lid (lb :: lk) rid (rb :: rk) = CreateFingerprint H v lid [lk] rid [rk].
Proof. intros L R. unfold CreateFingerprintSimple, castKey, key32. rewrite L, R. reflexivity. Qed.

(* Both sides show the same twelve blocks of five digits; they are those of the two halves, and the code
   of one side is that of the other with the halves swapped. *)
Theorem C49_safety_number H v lid lb (lk : bytes) rid rb (rk : bytes) nums qr :
  hash64 H -> 0 <= v < 2 ^ 32 -> length lk = 32%nat -> length rk = 32%nat ->
  CreateFingerprintSimple H v lid (lb :: lk) rid (rb :: rk) = Ok (nums, qr) ->
  exists qr',
    CreateFingerprintSimple H v rid (rb :: rk) lid (lb :: lk) = Ok (nums, qr') /\
    ScanQRFingerprint qr = Ok (Some v, Some (Some (spec_half H lid lk)), Some (Some (spec_half H rid rk))) /\
    ScanQRFingerprint qr' = Ok (Some v, Some (Some (spec_half H rid rk)), Some (Some (spec_half H lid lk))) /\
    exists bl br, half_blocks (spec_half H lid lk) bl /\ half_blocks (spec_half H rid rk) br /\
      (nums = bl ++ br \/ nums = br ++ bl).
Proof.
  intros HH Hv Ll Lr. rewrite !simple_ok by assumption. unfold CreateFingerprint.
  destruct (fp_hash H lid [lk] HH) as (Fl & Wl). destruct (fp_hash H rid [rk] HH) as (Fr & Wr).
  rewrite <- (fp_half H lid lk), <- (fp_half H rid rk).
  set (l := getFingerprint H ITERATIONS lid [lk]) in *. set (r := getFingerprint H ITERATIONS rid [rk]) in *.
  clearbody l r.
  destruct (create_cases l r Wl Wr ltac:(lia) ltac:(lia)) as [(_ & P) | (_ & n & E1 & E2 & O)].
  - rewrite P. discriminate.
  - rewrite E1, E2. cbn [bind].
    destruct (scan_create v l r Hv ltac:(lia) ltac:(lia)) as (q1 & Q1 & S1).
    destruct (scan_create v r l Hv ltac:(lia) ltac:(lia)) as (q2 & Q2 & S2).
    rewrite Q1, Q2. cbn [bind]. intros [= <- <-]. exists q2. split; [reflexivity |].
    split; [exact S1 |]. split; [exact S2 |].
    exists (blocks_of l), (blocks_of r). split; [apply blocks_half |]. split; [apply blocks_half | exact O].
Qed.

Lemma half_twelve h1 h2 b1 b2 : half_blocks h1 b1 -> half_blocks h2 b2 ->
  length (b1 ++ b2) = 12%nat /\ Forall (fun d => length d = 5%nat /\ Forall (fun c => 48 <= c <= 57) d) (b1 ++ b2).
Proof.
  intros (L1 & A1) (L2 & A2). rewrite app_length. split; [lia |]. apply Forall_app.
  split; apply Forall_forall; intros d Hd; apply (In_nth _ _ (@nil Z : bytes)) in Hd as (i & Hi & <-).
  - destruct (A1 i ltac:(lia)) as (? & ? & _). auto.
  - destruct (A2 i ltac:(lia)) as (? & ? & _). auto.
Qed.
(* the displayed form *)
Corollary C49_twelve_blocks H v lid lb (lk : bytes) rid rb (rk : bytes) nums qr :
  hash64 H -> 0 <= v < 2 ^ 32 -> length lk = 32%nat -> length rk = 32%nat ->
  CreateFingerprintSimple H v lid (lb :: lk) rid (rb :: rk) = Ok (nums, qr) ->
  length nums = 12%nat /\ Forall (fun d => length d = 5%nat /\ Forall (fun c => 48 <= c <= 57) d) nums.
Proof.
  intros HH Hv Ll Lr E. destruct (C49_safety_number _ _ _ _ _ _ _ _ _ _ HH Hv Ll Lr E) as (q & _ & _ & _ & bl & br & B1 & B2 & [-> | ->]).
  - exact (half_twelve _ _ _ _ B1 B2).
  - exact (half_twelve _ _ _ _ B2 B1).
Qed.

Lemma five_inj v d e : five_digits v d -> five_digits v e -> d = e.
Proof.
  intros (L1 & F1 & V1) (L2 & F2 & V2).
  do 6 (destruct d as [| ? d]; cbn [length] in L1; try lia). do 6 (destruct e as [| ? e]; cbn [length] in L2; try lia).
  repeat match goal with X : Forall _ (_ :: _) |- _ => inversion X; subst; clear X end.
  cbn [fold_left] in V2. repeat f_equal; lia.
Qed.
Lemma half_inj h b c : half_blocks h b -> half_blocks h c -> b = c.
Proof.
  intros (L1 & A1) (L2 & A2). apply (nth_ext _ _ (@nil Z : bytes) (@nil Z : bytes)); [lia |]. intros i Hi.
  eapply five_inj; [apply A1 | apply A2]; lia.
Qed.
(* Two displays agree only if the sixty digits stem from the same two halves, in one order or the other. *)
Theorem C49_number_determines_halves H v lid lb (lk : bytes) rid rb (rk : bytes) nums qr lid' lb' (lk' : bytes) rid' rb' (rk' : bytes) qr' :
  hash64 H -> 0 <= v < 2 ^ 32 -> length lk = 32%nat -> length rk = 32%nat -> length lk' = 32%nat -> length rk' = 32%nat ->
  CreateFingerprintSimple H v lid (lb :: lk) rid (rb :: rk) = Ok (nums, qr) ->
  CreateFingerprintSimple H v lid' (lb' :: lk') rid' (rb' :: rk') = Ok (nums, qr') ->
  exists b1 b2,
    (half_blocks (spec_half H lid lk) b1 /\ half_blocks (spec_half H rid rk) b2) /\
    ((half_blocks (spec_half H lid' lk') b1 /\ half_blocks (spec_half H rid' rk') b2) \/
     (half_blocks (spec_half H lid' lk') b2 /\ half_blocks (spec_half H rid' rk') b1)).
Proof.
  intros HH Hv L1 L2 L3 L4 E1 E2.
  destruct (C49_safety_number _ _ _ _ _ _ _ _ _ _ HH Hv L1 L2 E1) as (q & _ & _ & _ & bl & br & B1 & B2 & O1).
  destruct (C49_safety_number _ _ _ _ _ _ _ _ _ _ HH Hv L3 L4 E2) as (q2 & _ & _ & _ & bl' & br' & B3 & B4 & O2).
  exists bl, br. split; [auto |].
  assert (A : forall a b c d : list bytes, length a = 6%nat -> length c = 6%nat -> a ++ b = c ++ d -> a = c /\ b = d).
  { intros a b c d La Lc E. split.
    - rewrite <- (firstn_app_exact a b 6 La), E. apply firstn_app_exact. exact Lc.
    - rewrite <- (skipn_app_exact a b 6 La), E. apply skipn_app_exact. exact Lc. }
  pose proof (proj1 B1) as l1. pose proof (proj1 B2) as l2. pose proof (proj1 B3) as l3. pose proof (proj1 B4) as l4.
  destruct O1 as [O1 | O1], O2 as [O2 | O2]; rewrite O1 in O2; apply A in O2 as (-> & ->); auto.
Qed.

(* The order in which several identity keys of one side are given does not matter. *)
Lemma blt_trans a : forall b c, blt a b = true -> blt b c = true -> blt a c = true.
Proof.
  induction a as [| x t IH]; destruct b as [| y u]; destruct c as [| z w]; cbn [blt]; try discriminate; auto.
  destruct (Z.ltb_spec x y), (Z.ltb_spec y z), (Z.ltb_spec x z); try reflexivity; try lia;
    destruct (Z.eqb_spec x y), (Z.eqb_spec y z), (Z.eqb_spec x z); try discriminate; try lia. apply IH.
Qed.
Definition klt (a b : bytes) : bool := blt (fp_serialize a) (fp_serialize b).
Lemma insert_comm a b : length a = 32%nat -> length b = 32%nat -> forall l, Forall (fun k => length k = 32%nat) l ->
  insert_key a (insert_key b l) = insert_key b (insert_key a l).
Proof.
  intros La Lb. destruct (beq a b) eqn:E; [apply beq_eq in E; subst; reflexivity |].
  assert (T : forall x y, length x = 32%nat -> length y = 32%nat -> beq x y = false -> klt x y = negb (klt y x)).
  { intros x y Lx Ly N. apply blt_antisym; cbn; [lia |]. exact N. }
  assert (R : forall x, klt x x = false) by (intros; apply blt_irrefl).
  assert (Tr : forall x y z, klt x y = true -> klt y z = true -> klt x z = true) by (intros x y z; apply blt_trans).
  assert (Eab := T a b La Lb E). assert (E' : beq b a = false) by (rewrite beq_sym; exact E).
  assert (Eba := T b a Lb La E').
  fold klt in *. induction l as [| x t IH]; intros F.
  - cbn [insert_key]. fold (klt a b) (klt b a). rewrite Eab. destruct (klt b a); reflexivity.
  - inversion F as [| ? ? Lx Ft]; subst. specialize (IH Ft).
    cbn [insert_key]. fold (klt x a) (klt x b) (klt a b) (klt b a).
    destruct (klt x b) eqn:XB, (klt x a) eqn:XA; cbn [insert_key]; fold (klt x a) (klt x b) (klt a b) (klt b a);
      rewrite ?XA, ?XB; cbn [negb].
    + rewrite IH. reflexivity.
    + (* x < b, not x < a *)
      assert (AB : klt a b = true).
      { destruct (klt a b) eqn:AB; [reflexivity |]. try rewrite AB in Eba; cbn in Eba.
        rewrite (Tr x b a XB Eba) in XA. discriminate. }
      rewrite AB. cbn [insert_key]. fold (klt x b). try rewrite XB. reflexivity.
    + assert (BA : klt b a = true).
      { destruct (klt b a) eqn:BA; [reflexivity |]. try rewrite BA in Eab; cbn in Eab.
        rewrite (Tr x a b XA Eab) in XB. discriminate. }
      rewrite BA. cbn [insert_key]. fold (klt x a). try rewrite XA. reflexivity.
    + rewrite Eab. destruct (klt b a) eqn:BA; cbn [negb insert_key]; fold (klt x a) (klt x b); rewrite ?XA, ?XB; reflexivity.
Qed.
Lemma insert_len k l : length k = 32%nat -> Forall (fun k => length k = 32%nat) l -> Forall (fun k => length k = 32%nat) (insert_key k l).
Proof.
  intros K. induction l as [| x t IH]; intros F; cbn [insert_key]; [constructor; auto |]. inversion F; subst.
  destruct (blt _ _); [constructor; auto | auto].
Qed.
Lemma sort_len l : Forall (fun k => length k = 32%nat) l -> Forall (fun k => length k = 32%nat) (sort_keys l).
Proof. induction l as [| k t IH]; intros F; cbn [sort_keys]; [auto |]. inversion F; subst. apply insert_len; auto. Qed.
Lemma sort_perm l l' : Permutation l l' -> Forall (fun k => length k = 32%nat) l -> sort_keys l = sort_keys l'.
Proof.
  induction 1 as [| x l l' P IH | x y l | l1 l2 l3 P1 IH1 P2 IH2]; intros F; cbn [sort_keys].
  - reflexivity.
  - inversion F; subst. rewrite IH; auto.
  - inversion F as [| ? ? Hy F1]; subst. inversion F1 as [| ? ? Hx F2]; subst. apply insert_comm; auto. apply sort_len. exact F2.
  - rewrite IH1 by exact F. apply IH2. eapply Permutation_Forall; eassumption.
Qed.
Theorem C49_key_order_irrelevant H v lid lkeys lkeys' rid rkeys rkeys' :
  Forall (fun k => length k = 32%nat) lkeys -> Forall (fun k => length k = 32%nat) rkeys ->
  Permutation lkeys lkeys' -> Permutation rkeys rkeys' ->
  CreateFingerprint H v lid lkeys rid rkeys = CreateFingerprint H v lid lkeys' rid rkeys'.
Proof.
  intros F1 F2 P1 P2. unfold CreateFingerprint, getFingerprint, getLogicalKeyBytes.
  rewrite (sort_perm _ _ P1 F1), (sort_perm _ _ P2 F2). reflexivity.
Qed.

(* ---------- C50 ---------- *)

(* The computation panics exactly if the two halves have the same digits; it never returns an error. *)
Theorem C50_when_it_crashes H v lid lb (lk : bytes) rid rb (rk : bytes) :
  hash64 H -> 0 <= v < 2 ^ 32 -> length lk = 32%nat -> length rk = 32%nat ->
  ((exists b, half_blocks (spec_half H lid lk) b /\ half_blocks (spec_half H rid rk) b) /\
   CreateFingerprintSimple H v lid (lb :: lk) rid (rb :: rk) = Panic) \/
  ((forall b, ~ (half_blocks (spec_half H lid lk) b /\ half_blocks (spec_half H rid rk) b)) /\
   exists nums qr, CreateFingerprintSimple H v lid (lb :: lk) rid (rb :: rk) = Ok (nums, qr)).
Proof.
  intros HH Hv Ll Lr. rewrite simple_ok by assumption. unfold CreateFingerprint.
  destruct (fp_hash H lid [lk] HH) as (Fl & Wl). destruct (fp_hash H rid [rk] HH) as (Fr & Wr).
  rewrite <- (fp_half H lid lk), <- (fp_half H rid rk).
  set (l := getFingerprint H ITERATIONS lid [lk]) in *. set (r := getFingerprint H ITERATIONS rid [rk]) in *.
  clearbody l r.
  destruct (create_cases l r Wl Wr ltac:(lia) ltac:(lia)) as [(E & P) | (N & n & E1 & _)].
  - left. split; [exists (blocks_of l); split; [apply blocks_half | rewrite E; apply blocks_half] |]. rewrite P. reflexivity.
  - right. split.
    + intros b (B1 & B2). apply N. transitivity b; eapply half_inj; eauto using blocks_half.
    + rewrite E1. cbn [bind]. destruct (scan_create v l r Hv ltac:(lia) ltac:(lia)) as (q & -> & _). cbn [bind]. eauto.
Qed.

(* Comparing with oneself always crashes. *)
Theorem C50_own_number_crashes H v id b1 b2 (k : bytes) : hash64 H -> 0 <= v < 2 ^ 32 -> length k = 32%nat ->
  CreateFingerprintSimple H v id (b1 :: k) id (b2 :: k) = Panic.
Proof.
  intros HH Hv Lk. destruct (C50_when_it_crashes H v id b1 k id b2 k HH Hv Lk Lk) as [(_ & E) | (N & _)]; [exact E |].
  exfalso. eapply (N (blocks_of (getFingerprint H ITERATIONS id [k]))). rewrite <- (fp_half H id k).
  split; apply blocks_half.
Qed.

(* ---------- examples ---------- *)

(* a cheap hash of 64 bytes *)
Definition ex_hash (m : bytes) : bytes := repeat (Z.land (hd 0 m + hd 0 (skipn 70 m) + 1) 255) 64.
Lemma ex_hash_ok : hash64 ex_hash.
Proof.
  intros m. split; [reflexivity |]. apply Forall_forall. intros x Hx. apply repeat_spec in Hx. subst. unfold isbyte.
  change 255 with (Z.ones 8). rewrite Z.land_ones by lia. apply Z.mod_pos_bound. reflexivity.
Qed.
Definition ex_key (n : Z) : bytes := repeat n 32.
Definition alice_id : bytes := [43; 49; 50]. Definition bob_id : bytes := [43; 52; 57].
Definition ex_number := Eval vm_compute in CreateFingerprintSimple ex_hash 1 alice_id (5 :: ex_key 7) bob_id (5 :: ex_key 9).

Example C49_example : CreateFingerprintSimple ex_hash 1 alice_id (5 :: ex_key 7) bob_id (5 :: ex_key 9) = ex_number
  /\ exists nums qr, ex_number = Ok (nums, qr) /\ nums <> [].
Proof. split; [vm_compute; reflexivity |]. unfold ex_number. eexists _, _. split; [reflexivity | discriminate]. Qed.

Theorem C50_own_number_refuted :
  exists (H : bytes -> bytes) (v : Z) (id key : bytes),
    hash64 H /\ 0 <= v < 2 ^ 32 /\ length key = 33%nat /\
    CreateFingerprintSimple H v id key id key = Panic.
Proof.
  exists ex_hash, 1, alice_id, (5 :: ex_key 7). split; [apply ex_hash_ok |]. split; [lia |]. split; [reflexivity |].
  apply (C50_own_number_crashes ex_hash 1 alice_id 5 5 (ex_key 7) ex_hash_ok); [lia | reflexivity].
Qed.

Example C49_order_example :
  CreateFingerprint ex_hash 1 alice_id [ex_key 3; ex_key 2] bob_id [ex_key 9] =
  CreateFingerprint ex_hash 1 alice_id [ex_key 2; ex_key 3] bob_id [ex_key 9].
Proof. apply C49_key_order_irrelevant; [repeat constructor | repeat constructor | apply perm_swap | apply Permutation_refl]. Qed.

Print Assumptions C49_safety_number. Print Assumptions C49_twelve_blocks. Print Assumptions C49_number_determines_halves.
Print Assumptions C49_key_order_irrelevant. Print Assumptions C50_when_it_crashes. Print Assumptions C50_own_number_crashes.
Print Assumptions C50_own_number_refuted.
