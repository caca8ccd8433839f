(* Round trips of the stored records *)
From Coq Require Import ZArith List Lia Bool.
From Verif Require Import Bytes Res Wire WireProofs Messages Session RecordCodec.
Import ListNotations.
Open Scope Z_scope.

Fixpoint lookup (n : Z) (s : slots) : list wval :=
  match s with [] => [] | (m, vs) :: t => if m =? n then vs else lookup n t end.

Fixpoint last_varint (l : list wval) : option Z :=
  match l with [] => None | v :: t => match last_varint t with Some x => Some x | None => match v with WVarint x => Some x | _ => None end end end.
Fixpoint last_i64 (l : list wval) : option Z :=
  match l with [] => None | v :: t => match last_i64 t with Some x => Some x | None => match v with WI64 x => Some x | _ => None end end end.
Fixpoint last_len (l : list wval) : option bytes :=
  match l with [] => None | v :: t => match last_len t with Some x => Some x | None => match v with WLen x => Some x | _ => None end end end.
Fixpoint all_len (l : list wval) : list bytes :=
  match l with [] => [] | WLen b :: t => b :: all_len t | _ :: t => all_len t end.

Fixpoint distinct (l : list Z) : bool :=
  match l with [] => true | x :: t => negb (existsb (Z.eqb x) t) && distinct t end.

Lemma get_varint_own n vs : get_varint n (map (pair n) vs) = last_varint vs.
Proof. induction vs as [|v vs IH]; [reflexivity|]. cbn [map get_varint last_varint]. now rewrite IH, Z.eqb_refl. Qed.
Lemma get_i64_own n vs : get_i64 n (map (pair n) vs) = last_i64 vs.
Proof. induction vs as [|v vs IH]; [reflexivity|]. cbn [map get_i64 last_i64]. now rewrite IH, Z.eqb_refl. Qed.
Lemma get_len_own n vs : get_len n (map (pair n) vs) = last_len vs.
Proof. induction vs as [|v vs IH]; [reflexivity|]. cbn [map get_len last_len]. now rewrite IH, Z.eqb_refl. Qed.
Lemma get_all_own n vs : get_all n (map (pair n) vs) = all_len vs.
Proof. induction vs as [|v vs IH]; [reflexivity|]. cbn [map get_all all_len]. rewrite Z.eqb_refl, IH. now destruct v. Qed.
Lemma get_varint_other n m vs : m <> n -> get_varint n (map (pair m) vs) = None.
Proof. intros H. apply Z.eqb_neq in H. induction vs as [|v vs IH]; [reflexivity|]. cbn [map get_varint]. now rewrite IH, H. Qed.
Lemma get_i64_other n m vs : m <> n -> get_i64 n (map (pair m) vs) = None.
Proof. intros H. apply Z.eqb_neq in H. induction vs as [|v vs IH]; [reflexivity|]. cbn [map get_i64]. now rewrite IH, H. Qed.
Lemma get_len_other n m vs : m <> n -> get_len n (map (pair m) vs) = None.
Proof. intros H. apply Z.eqb_neq in H. induction vs as [|v vs IH]; [reflexivity|]. cbn [map get_len]. now rewrite IH, H. Qed.
Lemma get_all_other n m vs : m <> n -> get_all n (map (pair m) vs) = [].
Proof. intros H. apply Z.eqb_neq in H. induction vs as [|v vs IH]; [reflexivity|]. cbn [map get_all]. rewrite IH, H. now destruct v. Qed.

Lemma lookup_absent n s : existsb (Z.eqb n) (map fst s) = false -> lookup n s = [].
Proof.
  induction s as [|[m vs] s IH]; [reflexivity|]. cbn [map fst existsb lookup]. intros H. apply orb_false_iff in H.
  destruct H as [H1 H2]. rewrite Z.eqb_sym, H1. auto.
Qed.

Section Slots.
Variable s : slots.
Hypothesis D : distinct (map fst s) = true.

Lemma get_varint_flat n : get_varint n (flat s) = last_varint (lookup n s).
Proof.
  induction s as [|[m vs] t IH]; [reflexivity|]. cbn [map fst distinct] in D. apply andb_true_iff in D. destruct D as [D1 D2].
  unfold flat. cbn [flat_map fst snd lookup]. rewrite get_varint_app. fold (flat t). rewrite IH by auto.
  destruct (m =? n) eqn:E.
  - apply Z.eqb_eq in E. subst. apply negb_true_iff in D1. rewrite (lookup_absent _ _ D1). cbn [last_varint]. apply get_varint_own.
  - apply Z.eqb_neq in E. rewrite get_varint_other by auto. now destruct (last_varint (lookup n t)).
Qed.
Lemma get_i64_flat n : get_i64 n (flat s) = last_i64 (lookup n s).
Proof.
  induction s as [|[m vs] t IH]; [reflexivity|]. cbn [map fst distinct] in D. apply andb_true_iff in D. destruct D as [D1 D2].
  unfold flat. cbn [flat_map fst snd lookup]. rewrite get_i64_app. fold (flat t). rewrite IH by auto.
  destruct (m =? n) eqn:E.
  - apply Z.eqb_eq in E. subst. apply negb_true_iff in D1. rewrite (lookup_absent _ _ D1). cbn [last_i64]. apply get_i64_own.
  - apply Z.eqb_neq in E. rewrite get_i64_other by auto. now destruct (last_i64 (lookup n t)).
Qed.
Lemma get_len_flat n : get_len n (flat s) = last_len (lookup n s).
Proof.
  induction s as [|[m vs] t IH]; [reflexivity|]. cbn [map fst distinct] in D. apply andb_true_iff in D. destruct D as [D1 D2].
  unfold flat. cbn [flat_map fst snd lookup]. rewrite get_len_app. fold (flat t). rewrite IH by auto.
  destruct (m =? n) eqn:E.
  - apply Z.eqb_eq in E. subst. apply negb_true_iff in D1. rewrite (lookup_absent _ _ D1). cbn [last_len]. apply get_len_own.
  - apply Z.eqb_neq in E. rewrite get_len_other by auto. now destruct (last_len (lookup n t)).
Qed.
Lemma get_all_flat n : get_all n (flat s) = all_len (lookup n s).
Proof.
  induction s as [|[m vs] t IH]; [reflexivity|]. cbn [map fst distinct] in D. apply andb_true_iff in D. destruct D as [D1 D2].
  unfold flat. cbn [flat_map fst snd lookup]. rewrite get_all_app. fold (flat t). rewrite IH by auto.
  destruct (m =? n) eqn:E.
  - apply Z.eqb_eq in E. subst. apply negb_true_iff in D1. rewrite (lookup_absent _ _ D1). cbn [all_len].
    rewrite app_nil_r. apply get_all_own.
  - apply Z.eqb_neq in E. rewrite get_all_other by auto. reflexivity.
Qed.

Lemma g_u32_flat n v : lookup n s = f_u32 v -> u32 v -> g_u32 n (flat s) = v.
Proof.
  intros L H. unfold g_u32. rewrite get_varint_flat, L. unfold f_u32. destruct (v =? 0) eqn:E.
  - apply Z.eqb_eq in E. now subst.
  - cbn [last_varint]. now apply to_u32_id.
Qed.
Lemma g_i32_flat n v : lookup n s = f_i32 v -> - 2 ^ 31 <= v < 2 ^ 31 -> g_i32 n (flat s) = v.
Proof.
  intros L H. unfold g_i32. rewrite get_varint_flat, L. unfold f_i32. destruct (v =? 0) eqn:E.
  - apply Z.eqb_eq in E. now subst.
  - cbn [last_varint]. now apply to_of_i32.
Qed.
Lemma g_f64_flat n v : lookup n s = f_f64 v -> g_f64 n (flat s) = v.
Proof.
  intros L. unfold g_f64. rewrite get_i64_flat, L. unfold f_f64. destruct (v =? 0) eqn:E.
  - apply Z.eqb_eq in E. now subst.
  - reflexivity.
Qed.
Lemma g_bool_flat n v : lookup n s = f_bool v -> g_bool n (flat s) = v.
Proof. intros L. unfold g_bool. rewrite get_varint_flat, L. now destruct v. Qed.
Lemma g_bytes_flat n v : lookup n s = f_bytes v -> g_bytes n (flat s) = v.
Proof. intros L. unfold g_bytes. rewrite get_len_flat, L. now destruct v. Qed.

Lemma g_msg_none {A} n (dec : list wfield -> option A) : lookup n s = [] -> g_msg n dec (flat s) = Some None.
Proof. intros L. unfold g_msg, get_sub. rewrite get_all_flat, L. reflexivity. Qed.
Lemma g_msg_some {A} n (dec : list wfield -> option A) sub a : lookup n s = f_msg sub ->
  parse (marshal sub) = Some (flat sub) -> dec (flat sub) = Some a -> g_msg n dec (flat s) = Some (Some a).
Proof.
  intros L P E. unfold g_msg, get_sub. rewrite get_all_flat, L. cbn [all_len f_msg parse_all]. rewrite P, app_nil_r, E. reflexivity.
Qed.
Lemma g_rep_flat {A} n (dec : list wfield -> option A) (enc : A -> slots) l : lookup n s = flat_map (fun a => f_msg (enc a)) l ->
  Forall (fun a => parse (marshal (enc a)) = Some (flat (enc a)) /\ dec (flat (enc a)) = Some a) l ->
  g_rep n dec (flat s) = Some l.
Proof.
  intros L F. unfold g_rep. rewrite get_all_flat, L. clear L.
  induction F as [|a l [P E] F IH]; [reflexivity|]. cbn [flat_map f_msg app all_len map all_some]. rewrite P, E, IH. reflexivity.
Qed.
End Slots.

(* ---- parsing what was marshalled ---- *)
Definition val_ok (v : wval) : Prop :=
  match v with WLen _ => True | WVarint n => 0 <= n < 2 ^ 64 | WI64 n => 0 <= n < 2 ^ 64 | WI32 n => 0 <= n < 2 ^ 32 end.
Definition slots_ok (s : slots) : Prop := Forall (fun p => 1 <= fst p <= max_field /\ Forall val_ok (snd p)) s.
Definition small (s : slots) : Prop := zlen (marshal s) < 2 ^ 63.

Lemma sub_size s n vs b : In (n, vs) s -> In (WLen b) vs -> zlen b <= zlen (marshal s).
Proof.
  intros H1 H2. unfold marshal, flat. induction s as [|[m ws] s IH]; [destruct H1|].
  cbn [flat_map fst snd]. rewrite encode_app, zlen_app. destruct H1 as [H1|H1].
  - injection H1 as -> ->. pose proof (zlen_nonneg (encode (flat_map (fun p => map (pair (fst p)) (snd p)) s))).
    assert (zlen b <= zlen (encode (map (pair n) vs))); [|lia]. clear - H2. induction vs as [|v vs IH]; [destruct H2|].
    cbn [map]. change (encode ((n, v) :: map (pair n) vs)) with (enc_field (n, v) ++ encode (map (pair n) vs)).
    rewrite zlen_app. destruct H2 as [->|H2].
    + unfold enc_field. cbn [snd enc_val]. rewrite !zlen_app.
      pose proof (zlen_nonneg (varint (fst (n, WLen b) * 8 + wtype (WLen b)))). pose proof (zlen_nonneg (varint (zlen b))).
      pose proof (zlen_nonneg (encode (map (pair n) vs))). lia.
    + pose proof (zlen_nonneg (enc_field (n, v))). specialize (IH H2). lia.
  - pose proof (zlen_nonneg (encode (map (pair m) ws))). specialize (IH H1). lia.
Qed.

Lemma parse_marshal s : slots_ok s -> small s -> parse (marshal s) = Some (flat s).
Proof.
  intros H S. apply parse_encode. unfold flat. apply Forall_forall. intros [n v] Hi. apply in_flat_map in Hi.
  destruct Hi as ([m vs] & H1 & H2). cbn [fst snd] in H2. apply in_map_iff in H2. destruct H2 as (v' & E & H2).
  injection E as -> ->. unfold slots_ok in H. rewrite Forall_forall in H. destruct (H _ H1) as [H3 H4]. cbn [fst snd] in *.
  split; auto. cbn [snd fst]. rewrite Forall_forall in H4. specialize (H4 _ H2). destruct v; auto. cbn [wf_val].
  pose proof (sub_size s n vs b H1 H2). unfold small in S. lia.
Qed.

Lemma small_sub s n vs sub : small s -> In (n, vs) s -> In (WLen (marshal sub)) vs -> small sub.
Proof. intros S H1 H2. pose proof (sub_size s n vs _ H1 H2). unfold small in *. lia. Qed.

Lemma val_u32 v : u32 v -> Forall val_ok (f_u32 v).
Proof. intros H. unfold f_u32, u32 in *. destruct (v =? 0); repeat constructor; lia. Qed.
Lemma val_i32 v : Forall val_ok (f_i32 v).
Proof. unfold f_i32. destruct (v =? 0); repeat constructor; apply of_i32_range. Qed.
Lemma val_f64 v : 0 <= v < 2 ^ 64 -> Forall val_ok (f_f64 v).
Proof. intros H. unfold f_f64. destruct (v =? 0); repeat constructor; lia. Qed.
Lemma val_bool v : Forall val_ok (f_bool v).
Proof. unfold f_bool. destruct v; repeat constructor; lia. Qed.
Lemma val_bytes v : Forall val_ok (f_bytes v).
Proof. destruct v; repeat constructor. Qed.
Lemma val_msg m : Forall val_ok (f_msg m).
Proof. repeat constructor. Qed.
Lemma val_opt {A} (enc : A -> slots) (o : option A) : Forall val_ok (match o with Some a => f_msg (enc a) | None => [] end).
Proof. destruct o; repeat constructor. Qed.
Lemma val_rep {A} (enc : A -> slots) (l : list A) : Forall val_ok (flat_map (fun a => f_msg (enc a)) l).
Proof. induction l; cbn [flat_map]; [constructor|]. apply Forall_app. split; auto. repeat constructor. Qed.
Lemma in_rep {A} (enc : A -> slots) (l : list A) a : In a l -> In (WLen (marshal (enc a))) (flat_map (fun a => f_msg (enc a)) l).
Proof. intros H. apply in_flat_map. exists a. split; auto. now left. Qed.

Ltac slots_tac :=
  repeat (constructor; [split; [cbn [fst]; unfold max_field; lia|cbn [snd]; auto using val_u32, val_i32, val_f64, val_bool, val_bytes, val_msg, val_opt, val_rep]|]); constructor.

Lemma ck_ok c : u32 (ck_index c) -> small (ck_slots c) ->
  parse (marshal (ck_slots c)) = Some (flat (ck_slots c)) /\ ck_dec (flat (ck_slots c)) = Some c.
Proof.
  intros H S. split.
  - apply parse_marshal; auto. unfold slots_ok, ck_slots. slots_tac.
  - unfold ck_dec. destruct c as [i k]. f_equal. f_equal.
    + apply g_u32_flat; auto.
    + now apply g_bytes_flat.
Qed.
Lemma mk_ok k : u32 (mk_index k) -> small (mk_slots k) ->
  parse (marshal (mk_slots k)) = Some (flat (mk_slots k)) /\ mk_dec (flat (mk_slots k)) = Some k.
Proof.
  intros H S. split.
  - apply parse_marshal; auto. unfold slots_ok, mk_slots. slots_tac.
  - unfold mk_dec. destruct k. f_equal. f_equal; first [now apply g_u32_flat|now apply g_bytes_flat].
Qed.
Lemma pending_ok p : u32 (pp_pkid p) -> - 2 ^ 31 <= pp_spkid p < 2 ^ 31 -> small (pending_slots p) ->
  parse (marshal (pending_slots p)) = Some (flat (pending_slots p)) /\ pending_dec (flat (pending_slots p)) = Some p.
Proof.
  intros H H' S. split.
  - apply parse_marshal; auto. unfold slots_ok, pending_slots. slots_tac.
  - unfold pending_dec. destruct p. f_equal. f_equal; first [now apply g_u32_flat|now apply g_i32_flat|now apply g_bytes_flat].
Qed.

Lemma chain_ok c : typed_chain c -> small (chain_slots c) ->
  parse (marshal (chain_slots c)) = Some (flat (chain_slots c)) /\ chain_dec (flat (chain_slots c)) = Some c.
Proof.
  intros [H1 H2] S. split.
  - apply parse_marshal; auto. unfold slots_ok, chain_slots. slots_tac.
  - unfold chain_dec. destruct c as [rpub rpriv ck mks]. cbn [ch_ck ch_mks] in *.
    set (s := chain_slots (mkChain rpub rpriv ck mks)) in *.
    assert (E1 : g_msg 3 ck_dec (flat s) = Some ck).
    { destruct ck as [k|].
      - assert (S1 : small (ck_slots k)).
        { apply (small_sub s 3 (f_msg (ck_slots k))); auto; [right; right; now left|now left]. }
        destruct (ck_ok k H1 S1). apply (g_msg_some s eq_refl 3 ck_dec (ck_slots k)); auto.
      - now apply g_msg_none. }
    assert (E2 : g_rep 4 mk_dec (flat s) = Some mks).
    { apply (g_rep_flat s eq_refl 4 mk_dec mk_slots); auto. apply Forall_forall. intros k Hk. rewrite Forall_forall in H2.
      apply mk_ok; auto. apply (small_sub s 4 (flat_map (fun k => f_msg (mk_slots k)) mks)); auto;
        [do 3 right; now left|now apply in_rep]. }
    rewrite E1, E2. f_equal. f_equal; now apply g_bytes_flat.
Qed.

Lemma ss_ok c : typed_state c -> small (ss_slots c) ->
  parse (marshal (ss_slots c)) = Some (flat (ss_slots c)) /\ ss_dec (flat (ss_slots c)) = Some c.
Proof.
  intros (H1 & H2 & H3 & H4 & H5 & H6 & H7) S. split.
  - apply parse_marshal; auto. unfold slots_ok, ss_slots. slots_tac.
  - unfold ss_dec. destruct c as [ver loc rem root prev snd rcv pen rreg lreg ref base].
    cbn [s_version s_prev s_rreg s_lreg s_sender s_recv s_pending] in *.
    set (s := ss_slots _) in *.
    assert (E1 : g_msg 6 chain_dec (flat s) = Some snd).
    { destruct snd as [k|].
      - assert (S1 : small (chain_slots k)).
        { apply (small_sub s 6 (f_msg (chain_slots k))); auto; [do 5 right; now left|now left]. }
        destruct (chain_ok k H5 S1). apply (g_msg_some s eq_refl 6 chain_dec (chain_slots k)); auto.
      - now apply g_msg_none. }
    assert (E2 : g_rep 7 chain_dec (flat s) = Some rcv).
    { apply (g_rep_flat s eq_refl 7 chain_dec chain_slots); auto. apply Forall_forall. intros k Hk. rewrite Forall_forall in H6.
      apply chain_ok; auto. apply (small_sub s 7 (flat_map (fun k => f_msg (chain_slots k)) rcv)); auto;
        [do 6 right; now left|now apply in_rep]. }
    assert (E3 : g_msg 9 pending_dec (flat s) = Some pen).
    { destruct pen as [k|].
      - assert (S1 : small (pending_slots k)).
        { apply (small_sub s 9 (f_msg (pending_slots k))); auto; [do 7 right; now left|now left]. }
        destruct H7 as [H7 H8]. destruct (pending_ok k H7 H8 S1). apply (g_msg_some s eq_refl 9 pending_dec (pending_slots k)); auto.
      - now apply g_msg_none. }
    rewrite E1, E2, E3. f_equal. f_equal; first [now apply g_u32_flat|now apply g_bytes_flat|now apply g_bool_flat].
Qed.

Theorem record_round_trip r : typed_record r -> zlen (Serialize r) < 2 ^ 63 ->
  LoadSessionRecord (Serialize r) = Ok (mkSr (r_cur r) (r_prevs r) false).
Proof.
  intros T S. unfold LoadSessionRecord, Serialize. inversion T as [|? ? T1 T2]; subst.
  rewrite parse_marshal; auto; [|unfold slots_ok, record_slots; slots_tac].
  set (s := record_slots r) in *.
  assert (S1 : small (ss_slots (r_cur r))).
  { apply (small_sub s 1 (f_msg (ss_slots (r_cur r)))); auto; [now left|now left]. }
  destruct (ss_ok _ T1 S1) as [P1 D1].
  rewrite (g_msg_some s eq_refl 1 ss_dec (ss_slots (r_cur r)) (r_cur r)); auto.
  rewrite (g_rep_flat s eq_refl 2 ss_dec ss_slots (r_prevs r)); auto.
  apply Forall_forall. intros k Hk. rewrite Forall_forall in T2. apply ss_ok; auto.
  apply (small_sub s 2 (flat_map (fun k => f_msg (ss_slots k)) (r_prevs r))); auto; [right; now left|now apply in_rep].
Qed.

Theorem prekey_round_trip r : u32 (pkr_id r) -> zlen (pkr_serialize r) < 2 ^ 63 ->
  LoadPreKeyRecord (pkr_serialize r) = Ok r.
Proof.
  intros H S. unfold LoadPreKeyRecord, pkr_serialize. rewrite parse_marshal; auto.
  - destruct r. f_equal. f_equal; first [now apply g_u32_flat|now apply g_bytes_flat].
  - unfold slots_ok, pkr_slots. slots_tac.
Qed.

Theorem signed_prekey_round_trip r : u32 (spkr_id r) -> 0 <= spkr_time r < 2 ^ 64 -> zlen (spkr_serialize r) < 2 ^ 63 ->
  LoadSignedPreKeyRecord (spkr_serialize r) = Ok r.
Proof.
  intros H H' S. unfold LoadSignedPreKeyRecord, spkr_serialize. rewrite parse_marshal; auto.
  - destruct r. f_equal. f_equal; first [now apply g_u32_flat|now apply g_bytes_flat|now apply g_f64_flat].
  - unfold slots_ok, spkr_slots. slots_tac.
Qed.
