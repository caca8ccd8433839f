(* Concrete stores and parties over the toy primitives, used by examples and refutations. *)
From Coq Require Import ZArith List Lia Bool.
From Verif Require Import Bytes Res Wire Crypto Cbc Messages Session Builder Conversation.
Import ListNotations.
Open Scope Z_scope.

Definition rb (n : Z) : bytes := repeat n 32.
Definition ex_priv (n : Z) : bytes := clamp (rb n).
Definition ex_kp (n : Z) : keypair := (ex_priv n, basepub toy (ex_priv n)).
Definition ex_sign (pub msg : bytes) : bytes :=
  toy_expand 32 (toy_hash (toy_hash 13 pub) msg) ++ zeros 32.

(* names: A calls B "b", B calls A "a" *)
Definition na : bytes := [97].
Definition nb : bytes := [98].

Definition ex_worldA : world :=
  mkWorld (ex_kp 11) 1001 false (fun _ _ => None) (fun _ => None) (fun _ => None) (fun _ => None).
(* B holds one-time prekeys 5 and 6 and signed prekey 1 *)
Definition ex_worldB : world :=
  mkWorld (ex_kp 22) 1002 false (fun _ _ => None)
    (fun i => if i =? 5 then Some (ex_kp 55) else if i =? 6 then Some (ex_kp 66) else None)
    (fun i => if i =? 1 then Some (ex_kp 33) else None) (fun _ => None).

Definition ex_setup : setup :=
  mkSetup (fun x => match x with SA => (nb, 1) | SB => (na, 1) end)
    (fun x => match x with SA => ex_worldA | SB => ex_worldB end)
    (ex_priv 33) 1 (Some (ex_priv 55)) 5
    (ex_sign (snd (ex_kp 22)) (key_ser (basepub toy (ex_priv 33)))) (rb 77) (rb 88).

Lemma ex_setup_ok : setup_ok toy ex_setup.
Proof.
  constructor.
  - intros []; vm_compute; split; reflexivity.
  - intros []; vm_compute; split; congruence.
  - intros []; vm_compute; reflexivity.
  - vm_compute. reflexivity.
  - vm_compute. split; congruence.
  - vm_compute. reflexivity.
  - vm_compute. repeat split; congruence.
  - vm_compute. reflexivity.
  - split; reflexivity.
  - vm_compute. reflexivity.
Qed.

Lemma ex_no_history : no_history ex_setup.
Proof. intros []; reflexivity. Qed.

(* boolean versions of list facts, for computation *)
Fixpoint nodupb (l : list bytes) : bool :=
  match l with [] => true | x :: t => negb (existsb (beq x) t) && nodupb t end.
Lemma nodupb_ok l : nodupb l = true -> NoDup l.
Proof.
  induction l as [|x l IH]; cbn; intros H; constructor; apply andb_true_iff in H; destruct H as [H1 H2]; auto.
  intros Hin. rewrite negb_true_iff in H1. rewrite <- not_true_iff_false in H1. apply H1.
  apply existsb_exists. exists x. split; auto. apply beq_refl.
Qed.

Definition wfbb (l : bytes) : bool := forallb (fun b => (0 <=? b) && (b <? 256)) l.
Lemma wfbb_ok l : wfbb l = true -> wfb l.
Proof.
  unfold wfbb, wfb. rewrite forallb_forall. intros H. apply Forall_forall. intros b Hb. apply H in Hb.
  rewrite andb_true_iff, Z.leb_le, Z.ltb_lt in Hb. unfold isbyte. lia.
Qed.
