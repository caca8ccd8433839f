(* Byte strings and Go slices. A byte is a Z; []byte and string are list Z. *)
From Coq Require Import ZArith List Lia Bool.
Import ListNotations.
Open Scope Z_scope.

Definition bytes := list Z.

Definition isbyte (b : Z) : Prop := 0 <= b < 256.
Definition wfb (l : bytes) : Prop := Forall isbyte l.

Definition zlen {A} (l : list A) : Z := Z.of_nat (length l).

(* bytes.Equal / == on strings / hmac.Equal (value semantics) *)
Fixpoint beq (a b : bytes) : bool :=
  match a, b with
  | [], [] => true
  | x :: a', y :: b' => (x =? y) && beq a' b'
  | _, _ => false
  end.

Lemma beq_refl a : beq a a = true.
Proof. induction a as [|x a IH]; simpl; [reflexivity|]. now rewrite Z.eqb_refl. Qed.

Lemma beq_eq a b : beq a b = true <-> a = b.
Proof.
  split; [|intros ->; apply beq_refl].
  revert b; induction a as [|x a IH]; intros [|y b]; simpl; try discriminate; auto.
  rewrite andb_true_iff, Z.eqb_eq. intros [-> H]. f_equal. auto.
Qed.

Lemma beq_neq a b : beq a b = false <-> a <> b.
Proof.
  rewrite <- beq_eq. destruct (beq a b); split; congruence.
Qed.

Lemma beq_sym a b : beq a b = beq b a.
Proof.
  destruct (beq a b) eqn:E.
  - apply beq_eq in E. subst. symmetry. apply beq_refl.
  - symmetry. apply beq_neq. apply beq_neq in E. congruence.
Qed.


(* make([]byte, n) *)
Definition zeros (n : nat) : bytes := repeat 0 n.

Lemma zlen_nonneg {A} (l : list A) : 0 <= zlen l.
Proof. unfold zlen. lia. Qed.

Lemma zlen_app {A} (a b : list A) : zlen (a ++ b) = zlen a + zlen b.
Proof. unfold zlen. rewrite app_length. lia. Qed.

Lemma zlen_cons {A} x (b : list A) : zlen (x :: b) = 1 + zlen b.
Proof. unfold zlen. simpl length. lia. Qed.

Lemma zlen_nil {A} : zlen (@nil A) = 0.
Proof. reflexivity. Qed.

Lemma zlen_to_nat {A} (l : list A) : Z.to_nat (zlen l) = length l.
Proof. unfold zlen. apply Nat2Z.id. Qed.

Lemma firstn_app_exact {A} (a b : list A) n : length a = n -> firstn n (a ++ b) = a.
Proof.
  intros <-. rewrite firstn_app, firstn_all, Nat.sub_diag. simpl. apply app_nil_r.
Qed.

Lemma skipn_app_exact {A} (a b : list A) n : length a = n -> skipn n (a ++ b) = b.
Proof.
  intros <-. rewrite skipn_app, skipn_all, Nat.sub_diag. reflexivity.
Qed.

(* s[i] = v *)
Fixpoint setnth {A} (n : nat) (v : A) (l : list A) : list A :=
  match l, n with
  | [], _ => []
  | _ :: t, O => v :: t
  | x :: t, S n' => x :: setnth n' v t
  end.

Lemma setnth_length {A} n (v : A) l : length (setnth n v l) = length l.
Proof. revert n; induction l as [|x l IH]; intros [|n]; simpl; auto. Qed.

(* little and big endian fixed width integers *)
Fixpoint le_enc (n : nat) (v : Z) : bytes :=
  match n with
  | O => []
  | S n' => (v mod 256) :: le_enc n' (v / 256)
  end.

Fixpoint le_dec (l : bytes) : Z :=
  match l with
  | [] => 0
  | b :: t => b + 256 * le_dec t
  end.

Lemma le_enc_length n v : length (le_enc n v) = n.
Proof. revert v; induction n; intros; simpl; auto. Qed.

Lemma le_dec_enc n v : 0 <= v < 256 ^ Z.of_nat n -> le_dec (le_enc n v) = v.
Proof.
  revert v. induction n as [|n IH]; intros v Hv.
  - simpl in *. lia.
  - cbn [le_enc le_dec]. rewrite IH.
    + pose proof (Z.div_mod v 256 ltac:(lia)). lia.
    + replace (Z.of_nat (S n)) with (1 + Z.of_nat n) in Hv by lia.
      rewrite Z.pow_add_r in Hv by lia.
      split; [apply Z.div_pos; lia|].
      apply Z.div_lt_upper_bound; lia.
Qed.

Lemma le_enc_dec l : wfb l -> le_enc (length l) (le_dec l) = l.
Proof.
  induction 1 as [|b l Hb Hl IH]; [reflexivity|].
  cbn [length le_enc le_dec].
  unfold isbyte in Hb. f_equal.
  - rewrite (Z.mul_comm 256), Z_mod_plus_full. apply Z.mod_small; lia.
  - rewrite (Z.mul_comm 256), Z_div_plus_full by lia. rewrite Z.div_small by lia. exact IH.
Qed.

Lemma le_enc_wf n v : wfb (le_enc n v).
Proof.
  revert v; induction n; intros; simpl; constructor; [|apply IHn].
  unfold isbyte. apply Z.mod_pos_bound; lia.
Qed.

Lemma le_dec_range l : wfb l -> 0 <= le_dec l < 256 ^ zlen l.
Proof.
  induction 1 as [|b l Hb Hl IH]; [simpl; unfold zlen; simpl; lia|].
  rewrite zlen_cons, Z.pow_add_r by (pose proof (zlen_nonneg l); lia).
  cbn [le_dec]. unfold isbyte in Hb. lia.
Qed.

Definition be_enc n v := rev (le_enc n v).
Definition be_dec l := le_dec (rev l).

Lemma be_dec_enc n v : 0 <= v < 256 ^ Z.of_nat n -> be_dec (be_enc n v) = v.
Proof. intros. unfold be_dec, be_enc. rewrite rev_involutive. now apply le_dec_enc. Qed.

Lemma be_enc_length n v : length (be_enc n v) = n.
Proof. unfold be_enc. rewrite rev_length. apply le_enc_length. Qed.

Lemma wfb_app a b : wfb (a ++ b) <-> wfb a /\ wfb b.
Proof. unfold wfb. apply Forall_app. Qed.

Lemma wfb_rev a : wfb a -> wfb (rev a).
Proof. apply Forall_rev. Qed.

Lemma wfb_firstn n a : wfb a -> wfb (firstn n a).
Proof.
  revert n; induction a as [|x a IH]; intros [|n] H; simpl; try constructor;
    inversion H; subst; auto. now apply IH.
Qed.

Lemma wfb_skipn n a : wfb a -> wfb (skipn n a).
Proof.
  revert n; induction a as [|x a IH]; intros [|n] H; simpl; auto.
  inversion H; subst. apply IH; auto.
Qed.

Lemma wfb_zeros n : wfb (zeros n).
Proof. unfold zeros. induction n; simpl; constructor; auto. unfold isbyte; lia. Qed.
