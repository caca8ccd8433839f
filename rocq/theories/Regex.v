(* Regular expressions, as far as /repo/server.go 649 needs them: character classes, concatenation,
   alternatives and repetition, matched against the whole text. [lang] says which texts an expression
   matches; [rmatch] decides it with derivatives. *)
From Coq Require Import ZArith List Lia Bool.
From Verif Require Import Bytes.
Import ListNotations.
Open Scope Z_scope.

(* a class is a list of ranges of bytes *)
Inductive re : Type :=
| Emp | Eps | Cls (c : list (Z * Z)) | Cat (a b : re) | Alt (a b : re) | Star (a : re).

Definition in_cls (c : list (Z * Z)) (x : Z) : bool := existsb (fun r => (fst r <=? x) && (x <=? snd r)) c.

Inductive lang : re -> bytes -> Prop :=
| LEps : lang Eps []
| LCls c x : in_cls c x = true -> lang (Cls c) [x]
| LCat a b s t : lang a s -> lang b t -> lang (Cat a b) (s ++ t)
| LAltL a b s : lang a s -> lang (Alt a b) s
| LAltR a b s : lang b s -> lang (Alt a b) s
| LStar0 a : lang (Star a) []
| LStarS a s t : lang a s -> lang (Star a) t -> lang (Star a) (s ++ t).

Definition pair_eqb (a b : Z * Z) : bool := (fst a =? fst b) && (snd a =? snd b).
Fixpoint list_eqb {A} (f : A -> A -> bool) (a b : list A) : bool :=
  match a, b with
  | [], [] => true
  | x :: s, y :: t => f x y && list_eqb f s t
  | _, _ => false
  end.
Fixpoint re_eqb (a b : re) : bool :=
  match a, b with
  | Emp, Emp | Eps, Eps => true
  | Cls c, Cls d => list_eqb pair_eqb c d
  | Cat a b, Cat c d | Alt a b, Alt c d => re_eqb a c && re_eqb b d
  | Star a, Star b => re_eqb a b
  | _, _ => false
  end.

(* simplifying constructors *)
Definition cat (a b : re) : re :=
  match a with Emp => Emp | Eps => b | _ => match b with Emp => Emp | _ => Cat a b end end.
Fixpoint occurs (a b : re) : bool :=
  re_eqb a b || match b with Alt c d => re_eqb a c || occurs a d | _ => false end.
Fixpoint alt (a b : re) : re :=
  match a with
  | Emp => b
  | Alt c d => alt c (alt d b)
  | _ => match b with Emp => a | _ => if occurs a b then b else Alt a b end
  end.

Fixpoint nullable (a : re) : bool :=
  match a with
  | Emp | Cls _ => false
  | Eps | Star _ => true
  | Cat a b => nullable a && nullable b
  | Alt a b => nullable a || nullable b
  end.
Fixpoint deriv (x : Z) (a : re) : re :=
  match a with
  | Emp | Eps => Emp
  | Cls c => if in_cls c x then Eps else Emp
  | Cat a b => if nullable a then alt (cat (deriv x a) b) (deriv x b) else cat (deriv x a) b
  | Alt a b => alt (deriv x a) (deriv x b)
  | Star b => cat (deriv x b) (Star b)
  end.
Fixpoint rmatch (a : re) (s : bytes) : bool :=
  match s with
  | [] => nullable a
  | x :: t => rmatch (deriv x a) t
  end.

(* ---- rmatch decides lang ---- *)
Lemma list_eqb_eq {A} (f : A -> A -> bool) (H : forall x y, f x y = true -> x = y) a b : list_eqb f a b = true -> a = b.
Proof.
  revert b; induction a as [|x s IH]; intros [|y t]; cbn [list_eqb]; try discriminate; [reflexivity|].
  rewrite andb_true_iff. intros [E F]. f_equal; auto.
Qed.
Lemma re_eqb_eq a b : re_eqb a b = true -> a = b.
Proof.
  revert b; induction a; intros [| |c0|c0 d0|c0 d0|d0]; cbn [re_eqb]; try discriminate; try reflexivity.
  - intros H. f_equal. revert H. apply list_eqb_eq. intros [x y] [z w]. unfold pair_eqb. cbn [fst snd].
    rewrite andb_true_iff, !Z.eqb_eq. intros [-> ->]. reflexivity.
  - rewrite andb_true_iff. intros [E F]. f_equal; auto.
  - rewrite andb_true_iff. intros [E F]. f_equal; auto.
  - intros E. f_equal; auto.
Qed.

Lemma lang_emp s : ~ lang Emp s.
Proof. intros H. inversion H. Qed.
Lemma lang_eps s : lang Eps s <-> s = [].
Proof. split; [intros H; inversion H; reflexivity|intros ->; constructor]. Qed.
Lemma lang_cat_iff a b s : lang (Cat a b) s <-> exists u v, s = u ++ v /\ lang a u /\ lang b v.
Proof.
  split; [intros H; inversion H; subst; eauto|]. intros (u & v & -> & A & B). now constructor.
Qed.
Lemma lang_alt_iff a b s : lang (Alt a b) s <-> lang a s \/ lang b s.
Proof. split; [intros H; inversion H; subst; auto|intros [H|H]; [now apply LAltL|now apply LAltR]]. Qed.

Lemma cat_ok a b s : lang (cat a b) s <-> lang (Cat a b) s.
Proof.
  assert (E : lang Emp s <-> lang (Cat a Emp) s).
  { split; [intros H; now apply lang_emp in H|]. rewrite lang_cat_iff. intros (u & v & _ & _ & H). now apply lang_emp in H. }
  destruct a; cbn [cat]; try (destruct b; (exact E || reflexivity)).
  - rewrite lang_cat_iff. split; [intros H; now apply lang_emp in H|]. intros (u & v & _ & H & _). now apply lang_emp in H.
  - rewrite lang_cat_iff. split.
    + intros H. exists [], s. repeat split; [constructor|assumption].
    + intros (u & v & -> & H & K). apply lang_eps in H. subst u. exact K.
Qed.

Lemma occurs_ok a b s : occurs a b = true -> lang a s -> lang b s.
Proof.
  induction b; cbn [occurs]; rewrite ?orb_false_r; intros H L;
    try (apply re_eqb_eq in H; subst; exact L).
  apply orb_true_iff in H. destruct H as [H|H]; [apply re_eqb_eq in H; subst; exact L|].
  apply orb_true_iff in H. destruct H as [H|H]; [apply re_eqb_eq in H; subst; now apply LAltL|].
  apply LAltR. auto.
Qed.

Lemma alt_ok a : forall b s, lang (alt a b) s <-> lang (Alt a b) s.
Proof.
  assert (G : forall a b s, lang (match b with Emp => a | _ => if occurs a b then b else Alt a b end) s <-> lang (Alt a b) s).
  { intros a0 b s. assert (K : lang (if occurs a0 b then b else Alt a0 b) s <-> lang (Alt a0 b) s).
    { destruct (occurs a0 b) eqn:O; [|reflexivity]. rewrite lang_alt_iff. split; [tauto|].
      intros [H|H]; [now apply (occurs_ok a0)|exact H]. }
    destruct b; try exact K. rewrite lang_alt_iff. split; [tauto|]. intros [H|H]; [exact H|now apply lang_emp in H]. }
  induction a; intros b s; try (cbn [alt]; apply G).
  - cbn [alt]. rewrite lang_alt_iff. split; [tauto|]. intros [H|H]; [now apply lang_emp in H|exact H].
  - cbn [alt]. rewrite IHa1, !lang_alt_iff, IHa2, !lang_alt_iff. tauto.
Qed.

Lemma nullable_ok a : nullable a = true <-> lang a [].
Proof.
  induction a; cbn [nullable].
  - split; [discriminate|intros H; now apply lang_emp in H].
  - split; [constructor|reflexivity].
  - split; [discriminate|intros H; inversion H].
  - rewrite andb_true_iff, IHa1, IHa2, lang_cat_iff. split.
    + intros [H K]. now exists [], [].
    + intros (u & v & E & H & K). symmetry in E. apply app_eq_nil in E. destruct E as [-> ->]. now split.
  - rewrite orb_true_iff, IHa1, IHa2, lang_alt_iff. reflexivity.
  - split; [constructor|reflexivity].
Qed.

Lemma star_cons a x s : lang (Star a) (x :: s) -> exists u v, s = u ++ v /\ lang a (x :: u) /\ lang (Star a) v.
Proof.
  intros H. remember (Star a) as r eqn:R. remember (x :: s) as w eqn:W. revert x s W.
  induction H as [| | | | |b|b u v Hu _ Hv IH]; intros x0 s0 W; try discriminate.
  injection R as ->. destruct u as [|y u].
  - cbn [app] in W. apply (IH eq_refl x0 s0 W).
  - cbn [app] in W. injection W as -> <-. exists u, v. repeat split; assumption.
Qed.

Lemma deriv_ok a : forall x s, lang (deriv x a) s <-> lang a (x :: s).
Proof.
  induction a; intros x s; cbn [deriv].
  - split; intros H; now apply lang_emp in H.
  - split; intros H; [now apply lang_emp in H|inversion H].
  - destruct (in_cls c x) eqn:E.
    + rewrite lang_eps. split; [intros ->; now constructor|]. intros H. inversion H. reflexivity.
    + split; [intros H; now apply lang_emp in H|]. intros H. inversion H. congruence.
  - assert (L : lang (cat (deriv x a1) a2) s <-> exists u v, s = u ++ v /\ lang a1 (x :: u) /\ lang a2 v).
    { rewrite cat_ok, lang_cat_iff. split; intros (u & v & E & H & K); exists u, v; (repeat split; [exact E| |exact K]);
        now apply IHa1. }
    rewrite (lang_cat_iff a1 a2 (x :: s)).
    assert (M : (exists u v, x :: s = u ++ v /\ lang a1 u /\ lang a2 v) <->
      (exists u v, s = u ++ v /\ lang a1 (x :: u) /\ lang a2 v) \/ (lang a1 [] /\ lang a2 (x :: s))).
    { split.
      - intros ([|y u] & v & E & H & K); cbn [app] in E; [subst v; now right|]. injection E as -> ->. left. now exists u, v.
      - intros [(u & v & -> & H & K)|[H K]]; [now exists (x :: u), v|now exists [], (x :: s)]. }
    rewrite M, <- L. destruct (nullable a1) eqn:N.
    + apply nullable_ok in N. rewrite alt_ok, lang_alt_iff, IHa2. tauto.
    + split; [tauto|]. intros [H|[H _]]; [exact H|]. apply nullable_ok in H. congruence.
  - rewrite alt_ok, !lang_alt_iff, IHa1, IHa2. reflexivity.
  - rewrite cat_ok, lang_cat_iff. split.
    + intros (u & v & -> & H & K). apply IHa in H. apply (LStarS a (x :: u) v H K).
    + intros H. apply star_cons in H. destruct H as (u & v & -> & H & K). exists u, v. repeat split; [now apply IHa|exact K].
Qed.

Theorem rmatch_ok s : forall a, rmatch a s = true <-> lang a s.
Proof.
  induction s as [|x s IH]; intros a; cbn [rmatch]; [apply nullable_ok|]. rewrite IH. apply deriv_ok.
Qed.

(* ---- the usual abbreviations ---- *)
Definition ropt (a : re) : re := Alt a Eps.
Definition plus (a : re) : re := Cat a (Star a).
Definition byte (c : Z) : re := Cls [(c, c)].
Definition digit : re := Cls [(48, 57)].

Lemma star_digits s : Forall (fun c => 48 <= c <= 57) s -> lang (Star digit) s.
Proof.
  induction 1 as [|c t H _ IH]; [constructor|]. apply (LStarS digit [c] t); [|exact IH]. constructor.
  cbn [in_cls existsb fst snd]. lia.
Qed.
