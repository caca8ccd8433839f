(* Decimal numerals as printed and read by Go's strconv and fmt (library behaviour used by
   /repo/store.go). *)
From Coq Require Import ZArith List Lia Bool.
From Verif Require Import Bytes Res.
Import ListNotations.
Open Scope Z_scope.

(* digits of a non-negative number, most significant first, without leading zeros *)
Fixpoint udec_fuel (n : nat) (v : Z) : bytes :=
  match n with
  | O => []
  | S n' => if v <? 10 then [48 + v] else udec_fuel n' (v / 10) ++ [48 + v mod 10]
  end.
Definition udec (v : Z) : bytes := udec_fuel 20 v.
(* strconv.Itoa *)
Definition itoa (v : Z) : bytes := if v <? 0 then 45 :: udec (- v) else udec v.

Definition is_digit (c : Z) : bool := (48 <=? c) && (c <=? 57).
Fixpoint undec (acc : Z) (l : bytes) : option Z :=
  match l with
  | [] => Some acc
  | c :: t => if is_digit c then undec (acc * 10 + (c - 48)) t else None
  end.
(* strconv.Atoi on a 64-bit platform *)
Definition atoi (l : bytes) : option Z :=
  let digits d := match d with [] => None | _ => undec 0 d end in
  match l with
  | 45 :: d => match digits d with Some v => if v <=? 2 ^ 63 then Some (- v) else None | None => None end
  | 43 :: d => match digits d with Some v => if v <? 2 ^ 63 then Some v else None | None => None end
  | d => match digits d with Some v => if v <? 2 ^ 63 then Some v else None | None => None end
  end.

(* fmt.Sprintf("%09d") *)
Definition pad9 (v : Z) : bytes := let d := udec v in repeat 48 (9 - length d) ++ d.
(* fmt.Sscanf("%d") into a uint32: leading spaces are skipped (none occur in file names considered
   here), the longest run of digits is read, what follows is ignored. *)
Fixpoint leading_digits (l : bytes) : bytes :=
  match l with c :: t => if is_digit c then c :: leading_digits t else [] | [] => [] end.
Definition sscanf_u32 (l : bytes) : res Z :=
  match leading_digits l with
  | [] => Err EBadFormat
  | d => match undec 0 d with Some v => if v <? 2 ^ 32 then Ok v else Err EBadFormat | None => Err EBadFormat end
  end.

Lemma undec_app acc a b : undec acc (a ++ b) = match undec acc a with Some x => undec x b | None => None end.
Proof.
  revert acc. induction a as [|c a IH]; intros acc; [reflexivity|]. cbn [app undec]. destruct (is_digit c); auto.
Qed.

Lemma digit_ok d : 0 <= d < 10 -> is_digit (48 + d) = true.
Proof. intros H. unfold is_digit. rewrite andb_true_iff, !Z.leb_le. lia. Qed.

Lemma undec_udec_fuel n v : 0 <= v < 10 ^ Z.of_nat n -> undec 0 (udec_fuel n v) = Some v.
Proof.
  revert v. induction n as [|n IH]; intros v H.
  - change (10 ^ Z.of_nat 0) with 1 in H. cbn. f_equal. lia.
  - cbn [udec_fuel]. destruct (v <? 10) eqn:E.
    + apply Z.ltb_lt in E. cbn [undec]. rewrite digit_ok by lia. f_equal. lia.
    + apply Z.ltb_ge in E. rewrite undec_app, IH.
      * cbn [undec]. pose proof (Z.mod_pos_bound v 10 ltac:(lia)). rewrite digit_ok by lia. f_equal.
        pose proof (Z.div_mod v 10 ltac:(lia)). lia.
      * replace (Z.of_nat (S n)) with (1 + Z.of_nat n) in H by lia. rewrite Z.pow_add_r in H by lia.
        split; [apply Z.div_pos; lia|]. apply Z.div_lt_upper_bound; lia.
Qed.
Lemma undec_udec v : 0 <= v < 2 ^ 64 -> undec 0 (udec v) = Some v.
Proof. intros H. apply undec_udec_fuel. change (10 ^ Z.of_nat 20) with 100000000000000000000. lia. Qed.

Lemma udec_inj a b : 0 <= a < 2 ^ 64 -> 0 <= b < 2 ^ 64 -> udec a = udec b -> a = b.
Proof. intros Ha Hb E. pose proof (undec_udec a Ha) as X. rewrite E, (undec_udec b Hb) in X. congruence. Qed.

Lemma udec_fuel_digits n v : 0 <= v -> Forall (fun c => is_digit c = true) (udec_fuel n v).
Proof.
  revert v. induction n as [|n IH]; intros v H; cbn [udec_fuel]; [constructor|]. destruct (v <? 10) eqn:E.
  - apply Z.ltb_lt in E. repeat constructor. apply digit_ok. lia.
  - apply Forall_app. split; [apply IH; apply Z.div_pos; lia|]. repeat constructor. apply digit_ok.
    apply Z.mod_pos_bound. lia.
Qed.
Lemma udec_digits v : 0 <= v -> Forall (fun c => is_digit c = true) (udec v).
Proof. apply udec_fuel_digits. Qed.

Lemma udec_fuel_ne n v : udec_fuel (S n) v <> [].
Proof. cbn [udec_fuel]. destruct (v <? 10); [discriminate|]. destruct (udec_fuel n (v / 10)); discriminate. Qed.
Lemma udec_ne v : udec v <> [].
Proof. apply udec_fuel_ne. Qed.

Lemma atoi_udec v : 0 <= v < 2 ^ 63 -> atoi (udec v) = Some v.
Proof.
  intros H. unfold atoi. pose proof (udec_digits v ltac:(lia)) as D. pose proof (udec_ne v) as N.
  pose proof (undec_udec v ltac:(lia)) as U.
  assert (L : (v <? 2 ^ 63) = true) by (apply Z.ltb_lt; lia).
  destruct (udec v) as [|c t]; [congruence|]. inversion D as [|? ? D1 _]; subst.
  unfold is_digit in D1. apply andb_true_iff in D1. rewrite !Z.leb_le in D1.
  assert (c <> 45 /\ c <> 43) as [N1 N2] by lia.
  destruct c as [|p|p]; try lia.
  do 6 (destruct p as [p|p|]; try (rewrite U, L; reflexivity); try lia).
Qed.

Lemma atoi_itoa v : - 2 ^ 63 < v < 2 ^ 63 -> atoi (itoa v) = Some v.
Proof.
  intros H. unfold itoa. destruct (v <? 0) eqn:E.
  - apply Z.ltb_lt in E. unfold atoi. pose proof (udec_ne (- v)). pose proof (undec_udec (- v) ltac:(lia)) as U.
    destruct (udec (- v)); [congruence|]. rewrite U. assert (L : (- v <=? 2 ^ 63) = true) by (apply Z.leb_le; lia).
    rewrite L. f_equal. lia.
  - apply Z.ltb_ge in E. apply atoi_udec. lia.
Qed.

Lemma leading_all l : Forall (fun c => is_digit c = true) l -> leading_digits l = l.
Proof. induction 1 as [|c l H _ IH]; [reflexivity|]. cbn [leading_digits]. now rewrite H, IH. Qed.

Lemma undec_zeros n l : undec 0 (repeat 48 n ++ l) = undec 0 l.
Proof. induction n as [|n IH]; [reflexivity|]. cbn [repeat app undec]. exact IH. Qed.

Lemma pad9_digits v : 0 <= v -> Forall (fun c => is_digit c = true) (pad9 v).
Proof.
  intros H. unfold pad9. apply Forall_app. split; [|now apply udec_digits].
  apply Forall_forall. intros c Hc. apply repeat_spec in Hc. now subst.
Qed.

Lemma sscanf_pad9 v : 0 <= v < 2 ^ 32 -> sscanf_u32 (pad9 v) = Ok v.
Proof.
  intros H. unfold sscanf_u32. rewrite leading_all by (apply pad9_digits; lia).
  assert (N : pad9 v <> []) by (unfold pad9; destruct (repeat 48 (9 - length (udec v))); [apply udec_ne|discriminate]).
  assert (U : undec 0 (pad9 v) = Some v) by (unfold pad9; rewrite undec_zeros; apply undec_udec; lia).
  destruct (pad9 v); [congruence|]. rewrite U. assert (L : (v <? 2 ^ 32) = true) by (apply Z.ltb_lt; lia). now rewrite L.
Qed.

Lemma pad9_inj a b : 0 <= a < 2 ^ 32 -> 0 <= b < 2 ^ 32 -> pad9 a = pad9 b -> a = b.
Proof. intros Ha Hb E. pose proof (sscanf_pad9 a Ha) as X. rewrite E, (sscanf_pad9 b Hb) in X. congruence. Qed.

(* lexicographic order of byte strings, as of Go's sort.Strings *)
Fixpoint blt (a b : bytes) : bool :=
  match a, b with
  | _, [] => false
  | [], _ :: _ => true
  | x :: a', y :: b' => if x <? y then true else if x =? y then blt a' b' else false
  end.

Lemma blt_digits a b : length a = length b -> Forall (fun c => is_digit c = true) a -> Forall (fun c => is_digit c = true) b ->
  forall x y, 0 <= x -> 0 <= y -> exists va vb, undec x a = Some va /\ undec y b = Some vb /\
  (x < y -> va < vb) /\ (x = y -> (blt a b = true <-> va < vb)).
Proof.
  revert b. induction a as [|c a IH]; intros [|d b] L Ha Hb x y Hx Hy; try discriminate.
  - exists x, y. cbn [undec blt]. repeat split; auto; intros; try discriminate; lia.
  - inversion Ha as [|? ? Ha1 Ha2]; subst. inversion Hb as [|? ? Hb1 Hb2]; subst. cbn [undec blt].
    rewrite Ha1, Hb1. unfold is_digit in Ha1, Hb1. apply andb_true_iff in Ha1, Hb1. rewrite !Z.leb_le in Ha1, Hb1.
    destruct (IH b ltac:(cbn in L; lia) Ha2 Hb2 (x * 10 + (c - 48)) (y * 10 + (d - 48)) ltac:(lia) ltac:(lia))
      as (va & vb & E1 & E2 & E3 & E4).
    exists va, vb. split; auto. split; auto. split.
    + intros H. apply E3. lia.
    + intros ->. destruct (c <? d) eqn:Ecd.
      * apply Z.ltb_lt in Ecd. split; auto. intros _. apply E3. lia.
      * apply Z.ltb_ge in Ecd. destruct (c =? d) eqn:Eq.
        -- apply Z.eqb_eq in Eq. apply E4. lia.
        -- apply Z.eqb_neq in Eq. split; [discriminate|]. intros H. exfalso.
           destruct (IH b ltac:(cbn in L; lia) Ha2 Hb2 (y * 10 + (c - 48)) (y * 10 + (d - 48)) ltac:(lia) ltac:(lia))
             as (va' & vb' & F1 & F2 & F3 & F4).
           (* d < c: compare the other way round *)
           assert (G : vb < va); [|lia].
           clear - IH L Ha2 Hb2 E1 E2 Ecd Eq Hy Ha1 Hb1.
           assert (mono : forall a b x y va vb, length a = length b -> Forall (fun c => is_digit c = true) a ->
             Forall (fun c => is_digit c = true) b -> x < y -> undec x a = Some va -> undec y b = Some vb -> va < vb).
           { clear. induction a as [|c a IH]; intros [|d b] x y va vb L Ha Hb H E1 E2; try discriminate.
             - cbn in *. congruence.
             - inversion Ha as [|? ? Ha1 Ha2]; subst. inversion Hb as [|? ? Hb1 Hb2]; subst. cbn [undec] in *.
               rewrite Ha1 in E1. rewrite Hb1 in E2. unfold is_digit in Ha1, Hb1. apply andb_true_iff in Ha1, Hb1.
               rewrite !Z.leb_le in Ha1, Hb1. apply (IH b (x * 10 + (c - 48)) (y * 10 + (d - 48))); auto; cbn in L; lia. }
           apply (mono b a (y * 10 + (d - 48)) (y * 10 + (c - 48))); auto; cbn in L; lia.
Qed.

Lemma udec_fuel_length n v k : 0 <= v < 10 ^ Z.of_nat (S k) -> (length (udec_fuel n v) <= S k)%nat.
Proof.
  revert v k. induction n as [|n IH]; intros v k H; cbn [udec_fuel length]; [lia|]. destruct (v <? 10) eqn:E; [cbn; lia|].
  apply Z.ltb_ge in E. rewrite app_length. cbn [length]. destruct k as [|k].
  - change (10 ^ Z.of_nat 1) with 10 in H. lia.
  - specialize (IH (v / 10) k). replace (Z.of_nat (S (S k))) with (1 + Z.of_nat (S k)) in H by lia.
    rewrite Z.pow_add_r in H by lia. assert ((length (udec_fuel n (v / 10)) <= S k)%nat); [|lia]. apply IH.
    split; [apply Z.div_pos; lia|]. apply Z.div_lt_upper_bound; lia.
Qed.
Lemma pad9_length v : 0 <= v < 10 ^ 9 -> length (pad9 v) = 9%nat.
Proof.
  intros H. unfold pad9. rewrite app_length, repeat_length.
  pose proof (udec_fuel_length 20 v 8 H). unfold udec. lia.
Qed.

(* names of ids below 10^9 sort as the ids do *)
Lemma pad9_order a b : 0 <= a < 10 ^ 9 -> 0 <= b < 10 ^ 9 -> (blt (pad9 a) (pad9 b) = true <-> a < b).
Proof.
  intros Ha Hb.
  destruct (blt_digits (pad9 a) (pad9 b) ltac:(rewrite !pad9_length; auto) (pad9_digits a ltac:(lia)) (pad9_digits b ltac:(lia)) 0 0
    ltac:(lia) ltac:(lia)) as (va & vb & E1 & E2 & _ & E4).
  unfold pad9 in E1, E2. rewrite undec_zeros, undec_udec in E1, E2 by lia. injection E1 as <-. injection E2 as <-. auto.
Qed.
