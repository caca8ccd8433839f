(* C51-C53, C65: encodings. *)
From Coq Require Import ZArith List Lia Bool Arith.
From Verif Require Import Bytes Res Wire WireProofs Messages Session RecordCodec RecordCodecProofs Encodings.
Import ListNotations.
Open Scope Z_scope.

(* ---------- base64 ---------- *)

Definition upto (n : nat) : list Z := map Z.of_nat (seq 0 n).
Lemma in_upto n v : 0 <= v < Z.of_nat n -> In v (upto n).
Proof.
  intros H. unfold upto. replace v with (Z.of_nat (Z.to_nat v)) by lia. apply in_map, in_seq. lia.
Qed.

Lemma sweep64 : forallb (fun v => match d64 (c64 v) with Some w => w =? v | None => false end &&
  negb (is_newline (c64 v)) && negb (c64 v =? 61)) (upto 64) = true.
Proof. vm_compute. reflexivity. Qed.

Lemma c64_ok v : 0 <= v < 64 -> d64 (c64 v) = Some v /\ is_newline (c64 v) = false /\ (c64 v =? 61) = false.
Proof.
  intros H. pose proof sweep64 as S. rewrite forallb_forall in S. specialize (S v (in_upto 64 v ltac:(lia))).
  rewrite !andb_true_iff, !negb_true_iff in S. destruct S as [[A B] D].
  destruct (d64 (c64 v)) as [w|]; [|discriminate]. apply Z.eqb_eq in A. subst. auto.
Qed.

Lemma three_ind (P : bytes -> Prop) : P [] -> (forall a, P [a]) -> (forall a b, P [a; b]) ->
  (forall a b c t, P t -> P (a :: b :: c :: t)) -> forall l, P l.
Proof.
  intros H0 H1 H2 H3. enough (forall n l, (length l <= n)%nat -> P l) by (intros l; eauto).
  induction n as [|n IH]; intros l Hl.
  - destruct l; [auto|simpl in Hl; lia].
  - destruct l as [|a [|b [|c t]]]; auto. apply H3, IH. simpl in Hl. lia.
Qed.

Lemma split6 a : isbyte a -> 0 <= a / 4 < 64 /\ 0 <= a mod 4 < 4 /\ a = a / 4 * 4 + a mod 4.
Proof.
  unfold isbyte. intros H. pose proof (Z.div_mod a 4 ltac:(lia)). pose proof (Z.mod_pos_bound a 4 ltac:(lia)).
  lia.
Qed.
Lemma split4 a : isbyte a -> 0 <= a / 16 < 16 /\ 0 <= a mod 16 < 16 /\ a = a / 16 * 16 + a mod 16.
Proof.
  unfold isbyte. intros H. pose proof (Z.div_mod a 16 ltac:(lia)). pose proof (Z.mod_pos_bound a 16 ltac:(lia)).
  lia.
Qed.
Lemma split2 a : isbyte a -> 0 <= a / 64 < 4 /\ 0 <= a mod 64 < 64 /\ a = a / 64 * 64 + a mod 64.
Proof.
  unfold isbyte. intros H. pose proof (Z.div_mod a 64 ltac:(lia)). pose proof (Z.mod_pos_bound a 64 ltac:(lia)).
  lia.
Qed.

(* the shape of the padded text: a body without '=' and at most two '=' *)
Lemma enc64_shape l : wfb l -> exists body k,
  enc64 l = body ++ repeat 61 k /\ (k < 3)%nat /\ Nat.modulo (length body + k) 4 = 0%nat /\
  Forall (fun c => (c =? 61) = false /\ is_newline c = false) body.
Proof.
  assert (G : forall v, 0 <= v < 64 -> (c64 v =? 61) = false /\ is_newline (c64 v) = false)
    by (intros v Hv; destruct (c64_ok v Hv) as (_ & A & B); auto).
  induction l as [|a|a b|a b c t IH] using three_ind; intros W.
  - exists [], 0%nat. repeat split; [lia|constructor].
  - inversion W as [|? ? Ha _]; subst. pose proof (split6 a Ha).
    exists [c64 (a / 4); c64 (a mod 4 * 16)], 2%nat. repeat split; [lia|].
    constructor; [apply G; lia|constructor; [apply G; lia|constructor]].
  - inversion W as [|? ? Ha W']; subst. inversion W' as [|? ? Hb _]; subst.
    pose proof (split6 a Ha). pose proof (split4 b Hb).
    exists [c64 (a / 4); c64 (a mod 4 * 16 + b / 16); c64 (b mod 16 * 4)], 1%nat. repeat split; [lia|].
    constructor; [apply G; lia|constructor; [apply G; lia|constructor; [apply G; lia|constructor]]].
  - inversion W as [|? ? Ha W']; subst. inversion W' as [|? ? Hb W'']; subst. inversion W'' as [|? ? Hc W3]; subst.
    pose proof (split6 a Ha). pose proof (split4 b Hb). pose proof (split2 c Hc).
    destruct (IH W3) as (body & k & E & K & M & F).
    exists (c64 (a / 4) :: c64 (a mod 4 * 16 + b / 16) :: c64 (b mod 16 * 4 + c / 64) :: c64 (c mod 64) :: body), k.
    split; [cbn [enc64]; rewrite E; reflexivity|]. split; [exact K|]. split.
    + cbn [length]. replace (S (S (S (S (length body)))) + k)%nat with ((length body + k) + 1 * 4)%nat by lia.
      rewrite Nat.mod_add by lia. exact M.
    + constructor; [apply G; lia|]. constructor; [apply G; lia|]. constructor; [apply G; lia|].
      constructor; [apply G; lia|]. exact F.
Qed.

Lemma dec64_quanta_enc l : wfb l -> dec64_quanta (enc64 l) = Ok l.
Proof.
  induction l as [|a|a b|a b c t IH] using three_ind; intros W.
  - reflexivity.
  - inversion W as [|? ? Ha _]; subst. pose proof (split6 a Ha).
    cbn [enc64 dec64_quanta]. destruct (c64_ok (a / 4)) as (-> & _); [lia|].
    destruct (c64_ok (a mod 4 * 16)) as (-> & _); [lia|]. cbn [Z.eqb Pos.eqb andb].
    rewrite Z.div_mul by lia. do 2 f_equal. lia.
  - inversion W as [|? ? Ha W']; subst. inversion W' as [|? ? Hb _]; subst.
    pose proof (split6 a Ha). pose proof (split4 b Hb).
    cbn [enc64 dec64_quanta]. destruct (c64_ok (a / 4)) as (-> & _); [lia|].
    destruct (c64_ok (a mod 4 * 16 + b / 16)) as (-> & _); [lia|].
    destruct (c64_ok (b mod 16 * 4)) as (-> & _ & ->); [lia|]. cbn [Z.eqb Pos.eqb].
    rewrite Z.div_add_l by lia. rewrite (Z.div_small (b / 16)) by lia.
    replace ((a mod 4 * 16 + b / 16) mod 16) with (b / 16).
    2:{ rewrite Z.add_comm, Z.mod_add by lia. symmetry. apply Z.mod_small. lia. }
    rewrite Z.div_mul by lia. do 2 f_equal; [lia|f_equal; lia].
  - inversion W as [|? ? Ha W']; subst. inversion W' as [|? ? Hb W'']; subst. inversion W'' as [|? ? Hc W3]; subst.
    pose proof (split6 a Ha). pose proof (split4 b Hb). pose proof (split2 c Hc).
    cbn [enc64 dec64_quanta]. destruct (c64_ok (a / 4)) as (-> & _); [lia|].
    destruct (c64_ok (a mod 4 * 16 + b / 16)) as (-> & _); [lia|].
    destruct (c64_ok (b mod 16 * 4 + c / 64)) as (-> & _ & ->); [lia|].
    destruct (c64_ok (c mod 64)) as (-> & _ & ->); [lia|]. rewrite (IH W3). cbn [bind].
    rewrite Z.div_add_l by lia. rewrite (Z.div_small (b / 16)) by lia.
    replace ((a mod 4 * 16 + b / 16) mod 16) with (b / 16).
    2:{ rewrite Z.add_comm, Z.mod_add by lia. symmetry. apply Z.mod_small. lia. }
    rewrite Z.div_add_l by lia. rewrite (Z.div_small (c / 64)) by lia.
    replace ((b mod 16 * 4 + c / 64) mod 4) with (c / 64).
    2:{ rewrite Z.add_comm, Z.mod_add by lia. symmetry. apply Z.mod_small. lia. }
    f_equal. f_equal; [lia|]. f_equal; [lia|]. f_equal; lia.
Qed.

Lemma filter_id {A} (f : A -> bool) l : Forall (fun x => f x = true) l -> filter f l = l.
Proof. induction 1; simpl; auto. rewrite H. congruence. Qed.

Lemma trim_eq_shape body k : Forall (fun c => (c =? 61) = false /\ is_newline c = false) body ->
  trim_eq (body ++ repeat 61 k) = body.
Proof.
  intros F. unfold trim_eq. rewrite rev_app_distr.
  assert (R : rev (repeat 61 k) = repeat 61 k).
  { induction k as [|k IH]; [reflexivity|]. cbn [repeat rev]. rewrite IH. symmetry. apply repeat_cons. }
  rewrite R. clear R.
  assert (D : drop_eq (repeat 61 k ++ rev body) = rev body).
  { induction k as [|k IH]; cbn [repeat app drop_eq]; [|exact IH].
    apply Forall_rev in F. destruct (rev body) as [|x r]; [reflexivity|]. inversion F as [|? ? [E _] _]; subst.
    cbn [drop_eq]. now rewrite E. }
  rewrite D. apply rev_involutive.
Qed.

Lemma dec64_enc64 b : wfb b -> dec64 (enc64 b) = Ok b.
Proof.
  intros W. destruct (enc64_shape b W) as (body & k & E & K & M & F).
  unfold dec64. rewrite filter_id; [apply dec64_quanta_enc, W|].
  rewrite E. apply Forall_app. split.
  - eapply Forall_impl; [|exact F]. intros c [_ N]. now rewrite N.
  - apply Forall_forall. intros c Hc. apply repeat_spec in Hc. subst. reflexivity.
Qed.

(* C51: unpadded base64 decoding inverts encoding *)
Theorem C51_base64_round_trip b : wfb b -> Base64DecodeNonPadded (Base64EncWithoutPadding b) = Ok b.
Proof.
  intros W. destruct (enc64_shape b W) as (body & k & E & K & M & F).
  unfold Base64DecodeNonPadded, Base64EncWithoutPadding. rewrite E, (trim_eq_shape _ _ F).
  assert (P : (if Nat.eqb (length body mod 4) 0 then body else body ++ repeat 61 (4 - length body mod 4)) = enc64 b).
  { rewrite E. pose proof (Nat.div_mod (length body) 4 ltac:(lia)) as Q.
    pose proof (Nat.mod_upper_bound (length body) 4 ltac:(lia)).
    assert (X : ((length body mod 4 + k) mod 4 = 0)%nat) by (rewrite Nat.add_mod_idemp_l by lia; exact M).
    destruct (Nat.eqb_spec (length body mod 4) 0) as [Z0|NZ].
    - rewrite Z0 in X. rewrite Nat.add_0_l, Nat.mod_small in X by lia. subst k. now rewrite app_nil_r.
    - f_equal. f_equal. assert (length body mod 4 + k = 4)%nat; [|lia].
      destruct (Nat.lt_ge_cases (length body mod 4 + k) 4) as [L|G].
      + rewrite Nat.mod_small in X by lia. lia.
      + replace (length body mod 4 + k)%nat with ((length body mod 4 + k - 4) + 1 * 4)%nat in X by lia.
        rewrite Nat.mod_add, Nat.mod_small in X by lia. lia. }
  cbv zeta. transitivity (dec64 (enc64 b)); [f_equal; exact P|]. now apply dec64_enc64.
Qed.
Print Assumptions C51_base64_round_trip.

Example C51_ex_base64 : Base64EncWithoutPadding [105; 255; 0; 62] = [97; 102; 56; 65; 80; 103] /\
  Base64DecodeNonPadded [97; 102; 56; 65; 80; 103] = Ok [105; 255; 0; 62].
Proof. split; vm_compute; reflexivity. Qed.

(* C51: a public key survives the trip; a text is accepted exactly when it encodes a 33-byte string
   starting with 5, a signature exactly when it is 64 bytes long. *)
Theorem C51_key_round_trip k : wfb k -> length k = 32%nat -> decodeKey (encodeKey k) = Ok k.
Proof.
  intros W L. unfold decodeKey, encodeKey. rewrite C51_base64_round_trip.
  - cbn [bind length nth]. rewrite L. reflexivity.
  - constructor; [unfold isbyte; lia|exact W].
Qed.
Print Assumptions C51_key_round_trip.

Theorem C51_key_accepted_iff b k : wfb b ->
  (decodeKey (Base64EncWithoutPadding b) = Ok k <-> b = 5 :: k /\ length b = 33%nat).
Proof.
  intros W. unfold decodeKey. rewrite (C51_base64_round_trip b W). cbn [bind].
  destruct b as [|x b]; [split; [discriminate|intros [E _]; discriminate E]|]. cbn [length nth skipn].
  destruct (Nat.eqb_spec (S (length b)) 33) as [L|L]; destruct (Z.eqb_spec x 5) as [E|E]; cbn [negb orb];
    (split; [intros H; try discriminate H|intros [H1 H2]]).
  - injection H as ->. subst. auto.
  - now injection H1 as _ ->.
  - injection H1 as -> _. congruence.
  - congruence.
  - congruence.
Qed.
Print Assumptions C51_key_accepted_iff.

Theorem C51_key_never_short s k : decodeKey s = Ok k -> length k = 32%nat /\ Base64DecodeNonPadded s = Ok (5 :: k).
Proof.
  unfold decodeKey. destruct (Base64DecodeNonPadded s) as [b| |]; cbn [bind]; try discriminate.
  destruct (Nat.eqb_spec (length b) 33) as [L|L]; [|discriminate]. destruct b as [|x b]; [discriminate|].
  cbn [nth skipn negb orb]. destruct (Z.eqb_spec x 5) as [->|]; [|discriminate]. cbn [negb].
  intros [= ->]. simpl in L. split; [lia|reflexivity].
Qed.
Print Assumptions C51_key_never_short.

Theorem C51_signature_accepted_iff b s : wfb b ->
  (decodeSignature (Base64EncWithoutPadding b) = Ok s <-> b = s /\ length b = 64%nat).
Proof.
  intros W. unfold decodeSignature. rewrite (C51_base64_round_trip b W). cbn [bind].
  destruct (Nat.eqb_spec (length b) 64) as [L|L]; cbn [negb]; split.
  - intros [= ->]. auto.
  - now intros [-> _].
  - discriminate.
  - now intros [_ H].
Qed.
Print Assumptions C51_signature_accepted_iff.

Definition ex_key : bytes := Eval vm_compute in map (fun v => v * 7 + 3) (upto 32).
Example C51_ex_key : length ex_key = 32%nat /\ decodeKey (encodeKey ex_key) = Ok ex_key /\
  decodeKey (Base64EncWithoutPadding (6 :: ex_key)) = Err EBadFormat /\
  decodeKey (Base64EncWithoutPadding (5 :: 1 :: ex_key)) = Err EBadFormat /\
  decodeSignature (Base64EncWithoutPadding (ex_key ++ ex_key)) = Ok (ex_key ++ ex_key).
Proof. repeat split; vm_compute; reflexivity. Qed.

(* ---------- UUIDs ---------- *)

Lemma hexdigit_inj a b : 0 <= a < 16 -> 0 <= b < 16 -> hexdigit a = hexdigit b -> a = b.
Proof. unfold hexdigit. intros. destruct (Z.ltb_spec a 10), (Z.ltb_spec b 10); lia. Qed.

Lemma hex_inj a b : wfb a -> wfb b -> hex a = hex b -> a = b.
Proof.
  intros W. revert b. induction W as [|x a Hx Ha IH]; intros [|y b] Wb H; try discriminate; [reflexivity|].
  inversion Wb as [|? ? Hy Hb]; subst. cbn [hex] in H. injection H as H1 H2 H3.
  pose proof (split4 x Hx). pose proof (split4 y Hy).
  apply hexdigit_inj in H1; [|lia|lia]. apply hexdigit_inj in H2; [|lia|lia].
  f_equal; [|apply IH; auto]. destruct H as (_ & _ & ->), H0 as (_ & _ & ->). congruence.
Qed.

(* an explicit list of length 16 *)
Lemma len16 (id : bytes) : length id = 16%nat -> exists a b c d e f g h i j k l m n o p,
  id = [a; b; c; d; e; f; g; h; i; j; k; l; m; n; o; p].
Proof.
  intros L. do 16 (destruct id as [|? id]; [discriminate L|]). destruct id; [|discriminate L].
  repeat eexists.
Qed.

Definition undash (s : bytes) : bytes := filter (fun c => negb (c =? 45)) s.

Lemma hexdigit_not_dash v : 0 <= v -> (hexdigit v =? 45) = false.
Proof. intros. unfold hexdigit. apply Z.eqb_neq. destruct (Z.ltb_spec v 10); lia. Qed.

Lemma uuid_text id : length id = 16%nat -> idToHexUUID id =
  Ok (hex (slice 0 4 id) ++ [45] ++ hex (slice 4 6 id) ++ [45] ++ hex (slice 6 8 id) ++ [45] ++
      hex (slice 8 10 id) ++ [45] ++ hex (slice 10 16 id)).
Proof. intros L. destruct (len16 id L) as (?&?&?&?&?&?&?&?&?&?&?&?&?&?&?&?&->). reflexivity. Qed.

(* the digits of the text, in order *)
Lemma undash_hex l : wfb l -> undash (hex l) = hex l.
Proof.
  induction 1 as [|b l Hb Hl IH]; [reflexivity|]. pose proof (split4 b Hb).
  cbn [hex]. unfold undash in *. cbn [filter].
  rewrite (hexdigit_not_dash (b / 16)), (hexdigit_not_dash (b mod 16)) by lia. cbn [negb]. now rewrite IH.
Qed.

Lemma hex_app a b : hex (a ++ b) = hex a ++ hex b.
Proof. induction a as [|x a IH]; [reflexivity|]. cbn [app hex]. now rewrite IH. Qed.

Lemma uuid_undash id : wfb id -> length id = 16%nat -> forall u, idToHexUUID id = Ok u -> undash u = hex id.
Proof.
  intros W L u E. rewrite (uuid_text id L) in E.
  match type of E with Ok ?t = _ => assert (Eu : t = u) by congruence end. subst u. clear E.
  assert (W' : forall i j, wfb (slice i j id)) by (intros; apply wfb_firstn, wfb_skipn, W).
  unfold undash. rewrite !filter_app. fold (undash (hex (slice 0 4 id))). fold (undash (hex (slice 4 6 id))).
  fold (undash (hex (slice 6 8 id))). fold (undash (hex (slice 8 10 id))). fold (undash (hex (slice 10 16 id))).
  rewrite !undash_hex by apply W'.
  destruct (len16 id L) as (?&?&?&?&?&?&?&?&?&?&?&?&?&?&?&?&->). reflexivity.
Qed.

(* lowercase hexadecimal digit *)
Definition lower_hex (c : Z) : Prop := (48 <= c <= 57) \/ (97 <= c <= 102).
Definition uuid_form (u : bytes) : Prop :=
  length u = 36%nat /\
  forall i, (i < 36)%nat ->
    if existsb (Nat.eqb i) [8; 13; 18; 23]%nat then nth i u 0 = 45 else lower_hex (nth i u 0).

Lemma hexdigit_lower v : 0 <= v < 16 -> lower_hex (hexdigit v).
Proof. unfold lower_hex, hexdigit. intros. destruct (Z.ltb_spec v 10); lia. Qed.

(* C52: every 16-byte identifier has a text, of the form 8-4-4-4-12 in lower case *)
Theorem C52_uuid_form id : wfb id -> length id = 16%nat -> exists u, idToHexUUID id = Ok u /\ uuid_form u.
Proof.
  intros W L. rewrite (uuid_text id L). eexists. split; [reflexivity|].
  assert (H : forall b, In b id -> lower_hex (hexdigit (b / 16)) /\ lower_hex (hexdigit (b mod 16))).
  { intros b Hb. pose proof (split4 b (proj1 (Forall_forall _ _) W b Hb)). split; apply hexdigit_lower; lia. }
  destruct (len16 id L) as (?&?&?&?&?&?&?&?&?&?&?&?&?&?&?&?&->). clear W L.
  split; [reflexivity|]. intros i Hi.
  do 36 (destruct i as [|i]; [cbn -[hexdigit Z.div Z.modulo]; first [reflexivity | apply H; cbn [In]; tauto]|]).
  lia.
Qed.
Print Assumptions C52_uuid_form.

(* C52: different identifiers have different texts *)
Theorem C52_uuid_injective a b u : wfb a -> wfb b -> length a = 16%nat -> length b = 16%nat ->
  idToHexUUID a = Ok u -> idToHexUUID b = Ok u -> a = b.
Proof.
  intros Wa Wb La Lb Ea Eb. apply hex_inj; auto.
  rewrite <- (uuid_undash a Wa La u Ea), <- (uuid_undash b Wb Lb u Eb). reflexivity.
Qed.
Print Assumptions C52_uuid_injective.

(* C52: the two ways of making the text agree; the hex form is recovered by dropping the dashes;
   other texts are left alone *)
Theorem C52_uuid_hex_consistent id : wfb id -> length id = 16%nat ->
  idToHexUUID id = Ok (HexToUUID (hex id)) /\ undash (HexToUUID (hex id)) = hex id.
Proof.
  intros W L. assert (E : idToHexUUID id = Ok (HexToUUID (hex id))).
  { destruct (len16 id L) as (?&?&?&?&?&?&?&?&?&?&?&?&?&?&?&?&->). reflexivity. }
  split; [exact E|]. exact (uuid_undash id W L _ E).
Qed.
Print Assumptions C52_uuid_hex_consistent.

Theorem C52_hex_text_idempotent s : HexToUUID (HexToUUID s) = HexToUUID s.
Proof.
  unfold HexToUUID at 2 3. destruct (Nat.eqb_spec (length s) 32) as [L|L]; cbn [negb].
  - unfold HexToUUID. match goal with |- context [Nat.eqb (length ?t) 32] => assert (length t = 36%nat) as -> end; [|reflexivity].
    rewrite !app_length. unfold slice. repeat (rewrite firstn_length || rewrite skipn_length). rewrite L. reflexivity.
  - unfold HexToUUID. apply Nat.eqb_neq in L. now rewrite L.
Qed.
Print Assumptions C52_hex_text_idempotent.

Lemma is_hex_digit v : 0 <= v < 16 -> is_hex (hexdigit v) = true.
Proof.
  intros H. assert (S : forallb (fun v => is_hex (hexdigit v)) (upto 16) = true) by (vm_compute; reflexivity).
  rewrite forallb_forall in S. apply S, in_upto. lia.
Qed.
Lemma is_variant_digit v : 0 <= v < 16 -> is_variant (hexdigit v) = ((8 <=? v) && (v <=? 11)).
Proof.
  intros H. assert (S : forallb (fun v => Bool.eqb (is_variant (hexdigit v)) ((8 <=? v) && (v <=? 11))) (upto 16) = true)
    by (vm_compute; reflexivity).
  rewrite forallb_forall in S. apply eqb_prop, S, in_upto. lia.
Qed.
Lemma is_four_digit v : 0 <= v < 16 -> (52 =? hexdigit v) = (v =? 4).
Proof.
  intros H. assert (S : forallb (fun v => Bool.eqb (52 =? hexdigit v) (v =? 4)) (upto 16) = true) by (vm_compute; reflexivity).
  rewrite forallb_forall in S. apply eqb_prop, S, in_upto. lia.
Qed.

(* C52: an identifier's text passes isValidUUID exactly when it is a version 4 identifier *)
Theorem C52_valid_iff_version4 id u : wfb id -> length id = 16%nat -> idToHexUUID id = Ok u ->
  (isValidUUID u = true <-> nth 6 id 0 / 16 = 4 /\ 8 <= nth 8 id 0 / 16 <= 11).
Proof.
  intros W L E. rewrite (uuid_text id L) in E. injection E as <-.
  assert (H : forall b, In b id -> (0 <= b / 16 < 16) /\ (0 <= b mod 16 < 16)).
  { intros b Hb. pose proof (split4 b (proj1 (Forall_forall _ _) W b Hb)). tauto. }
  destruct (len16 id L) as (a&b&c&d&e&f&g&h&i&j&k&l&m&n&o&p&->). clear W L.
  unfold isValidUUID, uuid_classes.
  cbn [slice skipn firstn hex app repeat matches nth Nat.sub].
  assert (Hg : (0 <= g / 16 < 16) /\ (0 <= g mod 16 < 16)) by (apply H; cbn [In]; tauto).
  assert (Hi : (0 <= i / 16 < 16) /\ (0 <= i mod 16 < 16)) by (apply H; cbn [In]; tauto).
  repeat match goal with |- context [is_hex (hexdigit (?x / 16))] =>
    rewrite (is_hex_digit (x / 16)) by (apply H; cbn [In]; tauto) end.
  repeat match goal with |- context [is_hex (hexdigit (?x mod 16))] =>
    rewrite (is_hex_digit (x mod 16)) by (apply H; cbn [In]; tauto) end.
  rewrite (is_variant_digit (i / 16)) by tauto. rewrite (is_four_digit (g / 16)) by tauto.
  cbn [Z.eqb Pos.eqb andb]. rewrite !andb_true_iff, Z.eqb_eq, !Z.leb_le. tauto.
Qed.
Print Assumptions C52_valid_iff_version4.

Definition ex_uuid : bytes := [18; 52; 86; 120; 154; 188; 77; 239; 128; 1; 2; 3; 4; 5; 6; 255].
Example C52_ex : exists u, idToHexUUID ex_uuid = Ok u /\ isValidUUID u = true /\ HexToUUID (hex ex_uuid) = u /\
  uuid_form u.
Proof.
  destruct (C52_uuid_form ex_uuid) as (u & E & F); [repeat constructor; unfold isbyte; lia|reflexivity|].
  exists u. split; [exact E|]. vm_compute in E. injection E as <-.
  split; [vm_compute; reflexivity|]. split; [vm_compute; reflexivity|exact F].
Qed.

(* C65: isValidUUID is meant to accept UUIDs only, but '|' passes in the variant position *)
Definition some_hex (c : Z) : Prop := (48 <= c <= 57) \/ (97 <= c <= 102) \/ (65 <= c <= 70).
Definition bar_uuid : bytes := Eval vm_compute in
  repeat 48 8 ++ [45] ++ repeat 48 4 ++ [45] ++ [52] ++ repeat 48 3 ++ [45] ++ [124] ++ repeat 48 3 ++ [45] ++ repeat 48 12.
Theorem C65_valid_uuid_has_only_digits_refuted : exists s, isValidUUID s = true /\
  ~ Forall (fun c => c = 45 \/ some_hex c) s.
Proof.
  exists bar_uuid. split; [vm_compute; reflexivity|]. intros F. rewrite Forall_forall in F.
  specialize (F 124). unfold some_hex in F. assert (In 124 bar_uuid) as I by (cbn [bar_uuid In]; tauto).
  specialize (F I). lia.
Qed.
Print Assumptions C65_valid_uuid_has_only_digits_refuted.

Lemma matches_length cs s : matches cs s = true -> length s = length cs.
Proof.
  revert s; induction cs as [|p cs IH]; intros [|c s]; cbn [matches]; try discriminate; [reflexivity|].
  intros H. apply andb_true_iff in H. cbn [length]. f_equal. apply IH, H.
Qed.
Lemma matches_nth cs s : matches cs s = true -> forall i p, nth_error cs i = Some p -> p (nth i s 0) = true.
Proof.
  revert s; induction cs as [|q cs IH]; intros [|c s]; cbn [matches]; try discriminate.
  - intros _ [|i] p H; discriminate H.
  - intros H [|i] p E; apply andb_true_iff in H; cbn [nth_error nth] in *; [injection E as <-; tauto|].
    apply (IH s (proj2 H) i p E).
Qed.
Lemma is_hex_some c : is_hex c = true -> some_hex c.
Proof.
  unfold is_hex, some_hex. rewrite !orb_true_iff, !andb_true_iff, !Z.leb_le. lia.
Qed.

(* ... and that is the only thing wrong with what it accepts *)
Theorem C65_valid_uuid_except_bar s : isValidUUID s = true ->
  length s = 36%nat /\
  (forall i, (i < 36)%nat -> i <> 19%nat ->
     if existsb (Nat.eqb i) [8; 13; 18; 23]%nat then nth i s 0 = 45 else some_hex (nth i s 0)) /\
  nth 14 s 0 = 52 /\ (some_hex (nth 19 s 0) \/ nth 19 s 0 = 124).
Proof.
  unfold isValidUUID. intros M. pose proof (matches_length _ _ M) as L. pose proof (matches_nth _ _ M) as N.
  split; [exact L|]. split; [|split].
  - intros i Hi Ne.
    do 36 (destruct i as [|i]; [cbn [existsb Nat.eqb orb]; first
      [ (pose proof (N _ _ (eq_refl : nth_error uuid_classes _ = Some (Z.eqb 45))) as E; symmetry; apply Z.eqb_eq; exact E)
      | (match goal with |- some_hex (nth ?k _ _) => pose proof (N k is_hex eq_refl) as E end; apply is_hex_some; exact E)
      | (match goal with |- some_hex (nth ?k _ _) => pose proof (N k (Z.eqb 52) eq_refl) as E end;
         apply Z.eqb_eq in E; rewrite <- E; unfold some_hex; lia)
      | congruence
      | match goal with |- nth ?k _ _ = 45 => pose proof (N k (Z.eqb 45) eq_refl) as E end; symmetry; apply Z.eqb_eq; exact E ]|]).
    lia.
  - pose proof (N 14%nat (Z.eqb 52) eq_refl) as E. symmetry. apply Z.eqb_eq, E.
  - pose proof (N 19%nat is_variant eq_refl) as E. unfold is_variant in E. rewrite !orb_true_iff, !Z.eqb_eq in E.
    unfold some_hex. lia.
Qed.
Print Assumptions C65_valid_uuid_except_bar.
(* Exactly what is accepted: every UUID of version 4 in either case, besides those with a bar. *)
Lemma matches_intro (cs : list (Z -> bool)) : forall s, length s = length cs ->
  (forall i p, nth_error cs i = Some p -> p (nth i s 0) = true) -> matches cs s = true.
Proof.
  induction cs as [|q cs IH]; intros [|c s] L H; cbn [length] in L; try discriminate; [reflexivity|]. cbn [matches]. apply andb_true_iff. split.
  - exact (H O q eq_refl).
  - apply IH; [congruence|]. intros i p E. exact (H (S i) p E).
Qed.
Lemma some_is_hex c : some_hex c -> is_hex c = true.
Proof. unfold is_hex, some_hex. rewrite !orb_true_iff, !andb_true_iff, !Z.leb_le. lia. Qed.
Theorem C65_accepted s : isValidUUID s = true <->
  length s = 36%nat /\
  (forall i, (i < 36)%nat -> i <> 19%nat ->
     if existsb (Nat.eqb i) [8; 13; 18; 23]%nat then nth i s 0 = 45 else some_hex (nth i s 0)) /\
  nth 14 s 0 = 52 /\ In (nth 19 s 0) [56; 57; 97; 65; 98; 66; 124].
Proof.
  split.
  - intros M. destruct (C65_valid_uuid_except_bar s M) as (A & B & D & _). repeat (split; [assumption|]).
    pose proof (matches_nth _ _ M 19%nat is_variant eq_refl) as E. unfold is_variant in E. rewrite !orb_true_iff, !Z.eqb_eq in E. cbn [In]. lia.
  - intros (L & A & B & D). apply matches_intro; [exact L|]. intros i p E.
    assert (Hi : (i < 36)%nat) by (change 36%nat with (length uuid_classes); apply nth_error_Some; rewrite E; discriminate).
    specialize (A i Hi).
    do 36 (destruct i as [|i]; [cbn [existsb Nat.eqb orb] in A; unfold uuid_classes in E; cbn [repeat app nth_error] in E; injection E as <-;
      first [specialize (A ltac:(discriminate)); first [apply some_is_hex; exact A|apply Z.eqb_eq; symmetry; exact A|apply Z.eqb_eq; symmetry; exact B]
            |cbn [In] in D; decompose [or] D; try contradiction;
             match goal with X : _ = nth 19 s 0 |- _ => rewrite <- X; reflexivity end]|]).
    exfalso. lia.
Qed.
Print Assumptions C65_accepted.

(* ---------- sync streams ---------- *)

(* The receiving device, binary.ReadUvarint and then that many bytes, until nothing is left. *)
Fixpoint read_stream (fuel : nat) (bs : bytes) : option (list bytes) :=
  match bs with
  | [] => Some []
  | _ :: _ =>
    match fuel with
    | O => None
    | S f => match unvarint bs with
             | Some (n, r) =>
                 if n <=? zlen r then
                   match read_stream f (skipn (Z.to_nat n) r) with
                   | Some l => Some (firstn (Z.to_nat n) r :: l)
                   | None => None
                   end
                 else None
             | None => None
             end
    end
  end.

Lemma read_stream_ok rs s : stream rs = Ok s -> forall fuel, (length s <= fuel)%nat -> read_stream fuel s = Some rs.
Proof.
  revert s. induction rs as [|r rs IH]; cbn [stream]; intros s E fuel Hf.
  - injection E as <-. destruct fuel; reflexivity.
  - unfold varint32 in E. destruct (Z.ltb_spec (zlen r) (2 ^ 35)) as [L|]; [|discriminate]. cbn [bind] in E.
    destruct (stream rs) as [t| |] eqn:Et; try discriminate. cbn [bind] in E. injection E as <-.
    pose proof (varint_length_pos (zlen r)) as P. pose proof (zlen_nonneg r) as Pr.
    pose proof (unvarint_varint (zlen r) (r ++ t) ltac:(lia)) as U.
    destruct (varint (zlen r) ++ r ++ t) as [|x y] eqn:Ex.
    { apply (f_equal (@length Z)) in Ex. rewrite app_length in Ex. cbn [length] in Ex. lia. }
    destruct fuel as [|f]; [cbn [length] in Hf; lia|]. cbn [read_stream]. rewrite U.
    rewrite zlen_app. pose proof (zlen_nonneg t). destruct (Z.leb_spec (zlen r) (zlen r + zlen t)); [|lia].
    rewrite zlen_to_nat, (skipn_app_exact r t _ eq_refl), (firstn_app_exact r t _ eq_refl).
    rewrite (IH t eq_refl f); [reflexivity|].
    apply (f_equal (@length Z)) in Ex. rewrite !app_length in Ex. lia.
Qed.

Lemma stream_total rs : Forall (fun r => zlen r < 2 ^ 32) rs -> exists s, stream rs = Ok s.
Proof.
  induction 1 as [|r rs H F [s IH]]; [eexists; reflexivity|]. cbn [stream]. unfold varint32.
  destruct (Z.ltb_spec (zlen r) (2 ^ 35)); [|lia]. cbn [bind]. rewrite IH. cbn [bind]. eexists. reflexivity.
Qed.

(* C53: the stream is split again into the same records *)
Theorem C53_stream_round_trip rs : Forall (fun r => zlen r < 2 ^ 32) rs ->
  exists s, stream rs = Ok s /\ read_stream (length s) s = Some rs.
Proof.
  intros F. destruct (stream_total rs F) as [s E]. exists s. split; [exact E|]. apply (read_stream_ok rs s E). lia.
Qed.
Print Assumptions C53_stream_round_trip.

(* what the receiving device reads from one record *)
Definition contact_view (b : bytes) : option (option bytes * option bytes * option bytes * option bytes * option bytes * option Z * option Z) :=
  match parse b with
  | Some fs => Some (get_len 1 fs, get_len 9 fs, get_len 2 fs, get_len 4 fs, get_len 5 fs, get_varint 7 fs, get_varint 8 fs)
  | None => None
  end.
Definition contact_size_ok (c : contact) : Prop :=
  0 <= ct_expire c < 2 ^ 32 /\ zlen (marshal (contact_slots c)) < 2 ^ 32.

Lemma contact_view_ok c : contact_size_ok c -> contact_view (marshal (contact_slots c)) =
  Some (Some (ct_tel c), Some (ct_uuid c), Some (ct_name c), Some (ct_color c), ct_verified c,
        Some (if ct_blocked c then 1 else 0), Some (ct_expire c)).
Proof.
  intros [He Hs]. unfold contact_view.
  rewrite parse_marshal.
  - rewrite !get_len_flat, !get_varint_flat by reflexivity.
    destruct c as [? ? ? ? [v|] ? ?]; reflexivity.
  - unfold slots_ok. destruct c as [t u n co [v|] b e]; cbn in He; repeat (first [apply Forall_cons | apply Forall_nil | split]); cbn; try lia;
    try (unfold max_field; lia); try exact I; destruct b; lia.
  - unfold small. lia.
Qed.

(* C53: the contacts that a linked device reads are the ones with a valid UUID, in order *)
Theorem C53_contacts_round_trip cs : Forall contact_size_ok cs ->
  exists s rs, contact_blob cs = Ok s /\ read_stream (length s) s = Some rs /\
    map contact_view rs = map (fun c => Some (Some (ct_tel c), Some (ct_uuid c), Some (ct_name c), Some (ct_color c),
        ct_verified c, Some (if ct_blocked c then 1 else 0), Some (ct_expire c)))
      (filter (fun c => isValidUUID (ct_uuid c)) cs).
Proof.
  intros F. assert (F' : Forall contact_size_ok (filter (fun c => isValidUUID (ct_uuid c)) cs)).
  { apply Forall_forall. intros c Hc. apply filter_In in Hc. rewrite Forall_forall in F. apply F, Hc. }
  unfold contact_blob. set (l := filter _ cs) in *. clearbody l. clear F cs.
  destruct (C53_stream_round_trip (map (fun c => marshal (contact_slots c)) l)) as (s & E & R).
  { apply Forall_forall. intros r Hr. apply in_map_iff in Hr. destruct Hr as (c & <- & Hc).
    rewrite Forall_forall in F'. apply F', Hc. }
  exists s, (map (fun c => marshal (contact_slots c)) l). split; [exact E|]. split; [exact R|].
  rewrite map_map. apply map_ext_in. intros c Hc. apply contact_view_ok. rewrite Forall_forall in F'. apply F', Hc.
Qed.
Print Assumptions C53_contacts_round_trip.

Definition group_view (b : bytes) : option (option bytes * option bytes * list bytes) :=
  match parse b with Some fs => Some (get_len 1 fs, get_len 2 fs, get_all 3 fs) | None => None end.

Lemma all_len_map ms : all_len (map WLen ms) = ms.
Proof. induction ms as [|m ms IH]; [reflexivity|]. cbn [map all_len]. now rewrite IH. Qed.

Theorem C53_groups_round_trip gs : Forall (fun g => zlen (marshal (group_slots g)) < 2 ^ 32) gs ->
  exists s rs, group_blob gs = Ok s /\ read_stream (length s) s = Some rs /\
    map group_view rs = map (fun g => Some (Some (vg_id g), Some (vg_name g), vg_members g)) gs.
Proof.
  intros F. unfold group_blob. destruct (C53_stream_round_trip (map (fun g => marshal (group_slots g)) gs)) as (s & E & R).
  { apply Forall_forall. intros r Hr. apply in_map_iff in Hr. destruct Hr as (c & <- & Hc).
    rewrite Forall_forall in F. apply F, Hc. }
  exists s, (map (fun g => marshal (group_slots g)) gs). split; [exact E|]. split; [exact R|].
  rewrite map_map. apply map_ext_in. intros g Hg. rewrite Forall_forall in F. specialize (F g Hg).
  unfold group_view. rewrite parse_marshal.
  - rewrite !get_len_flat, !get_all_flat by reflexivity. cbn. now rewrite all_len_map.
  - unfold slots_ok. repeat (first [apply Forall_cons | apply Forall_nil | split]); cbn; try lia;
    try (unfold max_field; lia); try exact I. apply Forall_forall. intros v Hv. apply in_map_iff in Hv.
    destruct Hv as (m & <- & _). exact I.
  - unfold small. lia.
Qed.
Print Assumptions C53_groups_round_trip.

Definition ex_uuid_text : bytes := Eval vm_compute in match idToHexUUID ex_uuid with Ok u => u | _ => [] end.
Example C53_ex : exists s, contact_blob
    [mkContact [43; 49] ex_uuid_text [97] [] None true 3600;
     mkContact [43; 50] [120] [98] [] None true 0;
     mkContact [43; 51] ex_uuid_text (repeat 120 200) [] (Some [8; 1]) false 0] = Ok s /\
  option_map (map (fun b => match parse b with Some fs => get_len 1 fs | None => None end)) (read_stream (length s) s)
  = Some [Some [43; 49]; Some [43; 51]].
Proof. eexists. split; [vm_compute; reflexivity|]. vm_compute. reflexivity. Qed.
