From Coq Require Import ZArith List Lia Bool.
From Verif Require Import Bytes Wire.
Import ListNotations.
Open Scope Z_scope.

Lemma enc_varint_nonempty n v : enc_varint (S n) v <> [].
Proof. cbn [enc_varint]. destruct (v <? 128); discriminate. Qed.

Lemma enc_varint_S n v :
  enc_varint (S n) v = if v <? 128 then [v] else (v mod 128 + 128) :: enc_varint n (v / 128).
Proof. reflexivity. Qed.

Lemma dec_varint_SS n b rest :
  dec_varint (S (S n)) (b :: rest) =
  if b <? 128 then Some (b, rest)
  else match dec_varint (S n) rest with
       | Some (v, r) => Some (b - 128 + 128 * v, r) | None => None end.
Proof. reflexivity. Qed.

(* n more bytes are available: v < 2^(7n+1) *)
Lemma dec_enc_varint n v rest :
  0 <= v < 2 ^ (7 * Z.of_nat n + 1) ->
  dec_varint (S n) (enc_varint (S n) v ++ rest) = Some (v, rest).
Proof.
  revert v. induction n as [|n IH]; intros v Hv.
  - cbn in *. destruct (v <? 128) eqn:E.
    + cbn. destruct (v <? 2) eqn:E2; [reflexivity|]. apply Z.ltb_ge in E2. lia.
    + apply Z.ltb_ge in E. lia.
  - rewrite enc_varint_S. destruct (v <? 128) eqn:E.
    + cbn [app]. rewrite dec_varint_SS. now rewrite E.
    + apply Z.ltb_ge in E. rewrite <- app_comm_cons, dec_varint_SS, IH.
      * pose proof (Z.mod_pos_bound v 128 ltac:(lia)).
        pose proof (Z.div_mod v 128 ltac:(lia)).
        destruct (v mod 128 + 128 <? 128) eqn:E3; [apply Z.ltb_lt in E3; lia|].
        do 2 f_equal. lia.
      * replace (7 * Z.of_nat (S n) + 1) with (7 + (7 * Z.of_nat n + 1)) in Hv by lia.
        rewrite Z.pow_add_r in Hv by lia. change (2 ^ 7) with 128 in Hv.
        split; [apply Z.div_pos; lia|]. apply Z.div_lt_upper_bound; lia.
Qed.

Lemma unvarint_varint v rest :
  0 <= v < 2 ^ 64 -> unvarint (varint v ++ rest) = Some (v, rest).
Proof. intros H. unfold unvarint, varint. apply dec_enc_varint. exact H. Qed.

Lemma varint_length_pos v : (1 <= length (varint v))%nat.
Proof.
  unfold varint. pose proof (enc_varint_nonempty 9 v).
  destruct (enc_varint 10 v); [congruence|simpl; lia].
Qed.

Definition wf_val (v : wval) : Prop :=
  match v with
  | WVarint n => 0 <= n < 2 ^ 64
  | WI64 n => 0 <= n < 2 ^ 64
  | WLen b => zlen b < 2 ^ 64
  | WI32 n => 0 <= n < 2 ^ 32
  end.
Definition wf_field (f : wfield) : Prop := 1 <= fst f <= max_field /\ wf_val (snd f).

Lemma wtype_range v : 0 <= wtype v < 8.
Proof. destruct v; simpl; lia. Qed.

Lemma dec_tag_enc num v rest :
  1 <= num <= max_field ->
  dec_tag (varint (num * 8 + wtype v) ++ rest) = Some (num, wtype v, rest).
Proof.
  intros Hn. pose proof (wtype_range v).
  unfold max_field in *.
  unfold dec_tag. rewrite unvarint_varint by lia.
  replace ((num * 8 + wtype v) / 8) with num
    by (rewrite Z.div_add_l by lia; rewrite Z.div_small by lia; lia).
  replace ((num * 8 + wtype v) mod 8) with (wtype v)
    by (rewrite Z.add_comm, Z.mod_add by lia; rewrite Z.mod_small by lia; lia).
  unfold max_field.
  destruct ((num <? 1) || (2 ^ 29 - 1 <? num)) eqn:E; [|reflexivity].
  apply orb_true_iff in E. rewrite !Z.ltb_lt in E. lia.
Qed.

Lemma take_n_app n a rest : length a = n -> take_n n (a ++ rest) = Some (a, rest).
Proof.
  intros H. unfold take_n.
  destruct (Nat.leb n (length (a ++ rest))) eqn:E.
  - now rewrite firstn_app_exact, skipn_app_exact.
  - apply Nat.leb_gt in E. rewrite app_length in E. lia.
Qed.

Lemma take_len_app b rest :
  zlen b < 2 ^ 64 -> take_len ((varint (zlen b) ++ b) ++ rest) = Some (b, rest).
Proof.
  intros H. unfold take_len. rewrite <- app_assoc.
  rewrite unvarint_varint by (pose proof (zlen_nonneg b); lia).
  rewrite zlen_app. pose proof (zlen_nonneg rest).
  destruct (zlen b <=? zlen b + zlen rest) eqn:E; [|apply Z.leb_gt in E; lia].
  rewrite zlen_to_nat, firstn_app_exact, skipn_app_exact; auto.
Qed.

Lemma enc_field_length f : (1 <= length (enc_field f))%nat.
Proof. unfold enc_field. rewrite app_length. pose proof (varint_length_pos (fst f * 8 + wtype (snd f))). lia. Qed.

Lemma parse_fuel_encode fs : Forall wf_field fs -> forall n,
  (length (encode fs) <= n)%nat -> parse_fuel n (encode fs) = Some fs.
Proof.
  induction 1 as [|[num v] fs [Hn Hv] Hfs IH]; intros n Hlen.
  - destruct n; reflexivity.
  - unfold encode in *. cbn [flat_map] in *. rewrite app_length in Hlen.
    pose proof (enc_field_length (num, v)) as Hpos.
    assert (Hne : exists x t, enc_field (num, v) ++ flat_map enc_field fs = x :: t).
    { destruct (enc_field (num, v)) as [|x t] eqn:E; [simpl in Hpos; lia|]. simpl. eauto. }
    destruct Hne as (x & t & Hne).
    destruct n as [|n]; [lia|].
    cbn [parse_fuel]. rewrite Hne. rewrite <- Hne.
    unfold enc_field at 1. cbn [fst snd]. rewrite <- app_assoc.
    rewrite dec_tag_enc by (simpl in Hn; exact Hn).
    assert (Hrest : parse_fuel n (flat_map enc_field fs) = Some fs) by (apply IH; lia).
    cbn [snd] in Hv. simpl in Hv.
    destruct v as [k|k|b|k]; cbn [wtype enc_val];
      change (0 =? 0) with true; change (1 =? 0) with false; change (1 =? 1) with true;
      change (2 =? 0) with false; change (2 =? 1) with false; change (2 =? 2) with true;
      change (5 =? 0) with false; change (5 =? 1) with false; change (5 =? 2) with false;
      change (5 =? 3) with false; change (5 =? 5) with true; cbv iota.
    + rewrite unvarint_varint by exact Hv. now rewrite Hrest.
    + rewrite take_n_app by apply le_enc_length. rewrite Hrest. rewrite le_dec_enc; [reflexivity|].
      change (256 ^ Z.of_nat 8) with (2 ^ 64). exact Hv.
    + rewrite take_len_app by exact Hv. now rewrite Hrest.
    + rewrite take_n_app by apply le_enc_length. rewrite Hrest. rewrite le_dec_enc; [reflexivity|].
      change (256 ^ Z.of_nat 4) with (2 ^ 32). exact Hv.
Qed.

Theorem parse_encode fs : Forall wf_field fs -> parse (encode fs) = Some fs.
Proof. intros. unfold parse. apply parse_fuel_encode; auto. Qed.

Lemma encode_app a b : encode (a ++ b) = encode a ++ encode b.
Proof. unfold encode. apply flat_map_app. Qed.

(* accessors over concatenation *)
Lemma get_all_app n a b : get_all n (a ++ b) = get_all n a ++ get_all n b.
Proof.
  induction a as [|[m v] a IH]; [reflexivity|].
  cbn [app get_all]. destruct v; auto. destruct (m =? n); simpl; now rewrite IH.
Qed.

Lemma get_len_app n a b :
  get_len n (a ++ b) = match get_len n b with Some x => Some x | None => get_len n a end.
Proof.
  induction a as [|[m v] a IH]; [cbn [app]; destruct (get_len n b); reflexivity|].
  cbn [app get_len]. rewrite IH. destruct (get_len n b); auto.
Qed.

Lemma get_varint_app n a b :
  get_varint n (a ++ b) = match get_varint n b with Some x => Some x | None => get_varint n a end.
Proof.
  induction a as [|[m v] a IH]; [cbn [app]; destruct (get_varint n b); reflexivity|].
  cbn [app get_varint]. rewrite IH. destruct (get_varint n b); auto.
Qed.

Lemma get_i64_app n a b :
  get_i64 n (a ++ b) = match get_i64 n b with Some x => Some x | None => get_i64 n a end.
Proof.
  induction a as [|[m v] a IH]; [cbn [app]; destruct (get_i64 n b); reflexivity|].
  cbn [app get_i64]. rewrite IH. destruct (get_i64 n b); auto.
Qed.

Lemma to_u32_id v : 0 <= v < 2 ^ 32 -> to_u32 v = v.
Proof. intros. apply Z.mod_small; auto. Qed.

Lemma to_of_i32 v : - 2 ^ 31 <= v < 2 ^ 31 -> to_i32 (of_i32 v) = v.
Proof.
  intros H. unfold to_i32, of_i32.
  assert (E : (v mod 2 ^ 64) mod 2 ^ 32 = v mod 2 ^ 32).
  { rewrite <- Znumtheory.Zmod_div_mod; try lia. exists (2 ^ 32). reflexivity. }
  rewrite E. destruct (Z_lt_ge_dec v 0).
  - replace (v mod 2 ^ 32) with (v + 2 ^ 32).
    + destruct (v + 2 ^ 32 <? 2 ^ 31) eqn:L; [apply Z.ltb_lt in L; lia|lia].
    + symmetry. rewrite <- (Z.mod_add v 1 (2 ^ 32)) by lia. rewrite Z.mod_small; lia.
  - rewrite Z.mod_small by lia. destruct (v <? 2 ^ 31) eqn:L; [lia|apply Z.ltb_ge in L; lia].
Qed.

Lemma of_i32_range v : 0 <= of_i32 v < 2 ^ 64.
Proof. unfold of_i32. apply Z.mod_pos_bound. lia. Qed.
