(* What somebody can compute who runs the server: hands out the prekeys, drops, changes and invents
   messages, and has got hold of some of the keys of the clients. Any number of clients and sessions.
   Keys of ratchet.go and session.go as terms; that the bytes are their values for every client and
   every input is proved in ActiveLink.v.

   A public key stands for its private key. Bodies of messages are constants here: they are public,
   and a cipher text gives nothing away about its key. The other simplifications are those of
   Secrecy.v. A public key whose private key no client has is the attacker's, also if nobody has it
   (in particular if it is one of the points of small order, with which every agreement is known). *)
From Coq Require Import ZArith List Lia Bool.
From Verif Require Import Bytes Res Wire Crypto Cbc Messages Session.
Import ListNotations.
Open Scope Z_scope.

(* an order on keys, only to write the two keys of an agreement in one order *)
Fixpoint bytes_leb (a b : bytes) : bool :=
  match a, b with
  | [], _ => true
  | _ :: _, [] => false
  | x :: a', y :: b' => if x =? y then bytes_leb a' b' else x <? y
  end.

Inductive aterm : Type :=
| AConst (b : bytes)
| APriv (k : bytes)                                             (* the private key of public key k *)
| ADh (j k : bytes)
| ACat (a b : aterm)
| AHkdf (ikm salt : aterm) (info : bytes) (n from len : nat)
| AHmac (k m : aterm)
| ATake (n : nat) (t : aterm).

Definition adh (j k : bytes) : aterm := if bytes_leb j k then ADh j k else ADh k j.

(* The shared secret of a session: the keys of both sides that went into it *)
Record agreement : Type := mkAg {
  ag_init : bytes;           (* identity key of who began it *)
  ag_base : bytes;           (* base key drawn for it *)
  ag_resp : bytes;           (* identity key of the other *)
  ag_spk : bytes;            (* signed prekey of the other *)
  ag_otk : option bytes }.   (* one-time prekey of the other *)

(* ratchet.go 173-191 and 211-227 *)
Definition a_km (a : agreement) : aterm :=
  ACat (AConst diversifier) (ACat (adh (ag_spk a) (ag_init a)) (ACat (adh (ag_resp a) (ag_base a))
    (ACat (adh (ag_spk a) (ag_base a))
          (match ag_otk a with Some k => adh k (ag_base a) | None => AConst [] end)))).

(* A place in a session: the ratchet keys since the signed prekey, newest first, of both sides in turn.
   The newest key: *)
Definition cur (a : agreement) (p : list bytes) : bytes := match p with [] => ag_spk a | k :: _ => k end.
(* ratchet.go 125-135 and 46-58 *)
Fixpoint a_root (a : agreement) (p : list bytes) : aterm :=
  match p with
  | [] => AHkdf (a_km a) (AConst []) str_text 64 0 32
  | k :: q => AHkdf (adh (cur a q) k) (a_root a q) str_ratchet 64 0 32
  end.
(* ratchet.go 46-58, 125-135 and 93-104: the chain of the newest key after i messages *)
Fixpoint a_ck (a : agreement) (p : list bytes) (i : nat) : aterm :=
  match i with
  | O => match p with
         | [] => AHkdf (a_km a) (AConst []) str_text 64 32 32
         | k :: q => AHkdf (adh (cur a q) k) (a_root a q) str_ratchet 64 32 32
         end
  | S j => AHmac (a_ck a p j) (AConst [2])
  end.
(* ratchet.go 106-118 *)
Definition a_mk (a : agreement) (p : list bytes) (i from len : nat) : aterm :=
  AHkdf (AHmac (a_ck a p i) (AConst [1])) (AConst []) str_msgkeys 80 from len.
(* messages.go 109-117: the tag on a body that goes from one identity to another *)
Definition a_tag (a : agreement) (p : list bytes) (i : nat) (from to body : bytes) : aterm :=
  ATake 8 (AHmac (a_mk a p i 32 32) (AConst (key_ser from ++ key_ser to ++ body))).

(* ------------------------------------------------------------------------------------------ *)
(* What clients can lose: private keys and what is stored in a session *)
Inductive losable : aterm -> Prop :=
| lo_priv k : losable (APriv k)
| lo_root a p : losable (a_root a p)
| lo_ck a p i : losable (a_ck a p i)
| lo_mk a p i f l : losable (a_mk a p i f l).

(* a tag that a client has put on a message *)
Record emission : Type := mkEm {
  em_ag : agreement; em_path : list bytes; em_idx : nat;
  em_from : bytes; em_to : bytes; em_body : bytes; em_text : bytes }.
Definition tag_of (e : emission) : aterm :=
  a_tag (em_ag e) (em_path e) (em_idx e) (em_from e) (em_to e) (em_body e).

Section View.
Variable honest : bytes -> bool.              (* public keys of the clients *)
Variable leak : aterm -> Prop.                (* what they lost *)
Variable sent : emission -> Prop.             (* what they sent *)

(* what can be computed *)
Inductive aknows : aterm -> Prop :=
| ak_leak t : losable t -> leak t -> aknows t
| ak_tag e : sent e -> aknows (tag_of e)
| ak_const b : aknows (AConst b)
| ak_own k : honest k = false -> aknows (APriv k)
| ak_dh j k : aknows (APriv j) -> aknows (adh j k)
| ak_cat a b : aknows a -> aknows b -> aknows (ACat a b)
| ak_left a b : aknows (ACat a b) -> aknows a
| ak_right a b : aknows (ACat a b) -> aknows b
| ak_hkdf i s f n x l : aknows i -> aknows s -> aknows (AHkdf i s f n x l)
| ak_hmac k m : aknows k -> aknows m -> aknows (AHmac k m)
| ak_take n t : aknows t -> aknows (ATake n t).

(* ------------------------------------------------------------------------------------------ *)
(* Which places are exposed, without computing anything *)
Definition bad (k : bytes) : Prop := honest k = false \/ leak (APriv k).
Definition km_bad (a : agreement) : Prop :=
  (bad (ag_spk a) \/ bad (ag_init a)) /\ (bad (ag_resp a) \/ bad (ag_base a)) /\
  (bad (ag_spk a) \/ bad (ag_base a)) /\
  match ag_otk a with Some k => bad k \/ bad (ag_base a) | None => True end.
Fixpoint root_bad (a : agreement) (p : list bytes) : Prop :=
  leak (a_root a p) \/
  match p with
  | [] => km_bad a
  | k :: q => (bad (cur a q) \/ bad k) /\ root_bad a q
  end.
Definition chain_bad (a : agreement) (p : list bytes) (i : nat) : Prop :=
  (exists j, (j <= i)%nat /\ leak (a_ck a p j)) \/
  match p with
  | [] => km_bad a
  | k :: q => (bad (cur a q) \/ bad k) /\ root_bad a q
  end.
(* from and len say which of the three keys *)
Definition mk_bad (a : agreement) (p : list bytes) (i from len : nat) : Prop :=
  leak (a_mk a p i from len) \/ chain_bad a p i.

(* ------------------------------------------------------------------------------------------ *)
Lemma bytes_leb_total a : forall b, bytes_leb a b = true \/ bytes_leb b a = true.
Proof.
  induction a as [|x a IH]; intros [|y b]; auto. cbn [bytes_leb].
  destruct (Z.eqb_spec x y) as [->|H]; [rewrite Z.eqb_refl; apply IH|].
  destruct (Z.eqb_spec y x); [lia|]. destruct (Z.ltb_spec x y); [now left|right]. apply Z.ltb_lt. lia.
Qed.
Lemma bytes_leb_antisym a : forall b, bytes_leb a b = true -> bytes_leb b a = true -> a = b.
Proof.
  induction a as [|x a IH]; intros [|y b]; cbn [bytes_leb]; intros H1 H2; try discriminate; auto.
  destruct (Z.eqb_spec x y) as [->|H].
  - rewrite Z.eqb_refl in H2. f_equal. now apply IH.
  - destruct (Z.eqb_spec y x); [lia|]. apply Z.ltb_lt in H1, H2. lia.
Qed.
Lemma adh_comm j k : adh j k = adh k j.
Proof.
  unfold adh. destruct (bytes_leb j k) eqn:E1, (bytes_leb k j) eqn:E2; auto.
  - now rewrite (bytes_leb_antisym _ _ E1 E2).
  - destruct (bytes_leb_total j k); congruence.
Qed.

Definition is_tag (t : aterm) : Prop := exists e, sent e /\ t = tag_of e.
Definition lost (t : aterm) : Prop := losable t /\ leak t.
Fixpoint AP (t : aterm) : Prop :=
  match t with
  | AConst _ => True
  | APriv k => bad k
  | ADh j k => bad j \/ bad k
  | ACat a b => AP a /\ AP b
  | AHkdf i s _ _ _ _ => lost t \/ (AP i /\ AP s)
  | AHmac k m => lost t \/ (AP k /\ AP m)
  | ATake _ u => is_tag t \/ AP u
  end.
Lemma AP_adh j k : AP (adh j k) <-> bad j \/ bad k.
Proof. unfold adh. destruct (bytes_leb j k); cbn [AP]; tauto. Qed.
Lemma AP_lost t : lost t -> AP t.
Proof.
  intros H. assert (HL := H). destruct H as [H HK]. destruct H.
  - now right.
  - destruct p; left; exact HL.
  - destruct i; [destruct p|]; left; exact HL.
  - left; exact HL.
Qed.
Lemma aknows_AP t : aknows t -> AP t.
Proof.
  induction 1.
  - apply AP_lost. now split.
  - unfold tag_of, a_tag. left. exists e. auto.
  - exact Logic.I.
  - now left.
  - apply AP_adh. left. exact IHaknows.
  - split; assumption.
  - apply IHaknows.
  - apply IHaknows.
  - right. auto.
  - right. auto.
  - right. auto.
Qed.
Lemma AP_km a : AP (a_km a) -> km_bad a.
Proof.
  unfold a_km. cbn [AP]. intros (_ & H1 & H2 & H3 & H4). rewrite AP_adh in H1, H2, H3.
  split; [exact H1|]. split; [exact H2|]. split; [exact H3|].
  destruct (ag_otk a); [now rewrite AP_adh in H4|exact Logic.I].
Qed.
Lemma AP_root a p : AP (a_root a p) -> root_bad a p.
Proof.
  induction p as [|k q IH]; intros H.
  - destruct H as [H|[H _]]; [left; apply H|right; now apply AP_km].
  - destruct H as [H|[H1 H2]]; [left; apply H|right]. split; [now apply AP_adh|now apply IH].
Qed.
Lemma AP_ck a p i : AP (a_ck a p i) -> chain_bad a p i.
Proof.
  induction i as [|i IH]; intros H.
  - destruct p as [|k q]; destruct H as [H|H]; try (left; exists 0%nat; split; [lia|apply H]); right.
    + apply AP_km. apply H.
    + destruct H as [H1 H2]. split; [now apply AP_adh|now apply AP_root].
  - destruct H as [H|[H _]]; [left; exists (S i); split; [lia|apply H]|].
    destruct (IH H) as [(j & H1 & H2)|H1]; [left; exists j; split; [lia|exact H2]|now right].
Qed.
(* nothing else under an HMAC can be lost *)
Lemma lost_hmac1 u : ~ lost (AHmac u (AConst [1])).
Proof.
  intros [H _]. remember (AHmac u (AConst [1])) as t eqn:E. destruct H; try discriminate E.
  - destruct p; discriminate E.
  - destruct i; [destruct p; discriminate E|discriminate E].
Qed.
Lemma ck_not_mk a p i a' p' i' f l : a_ck a p i <> a_mk a' p' i' f l.
Proof.
  unfold a_mk. destruct i; [destruct p|]; cbn [a_ck]; intros H; try discriminate H;
    unfold a_km in *; injection H; intros; discriminate.
Qed.
Lemma lost_hmac_mk a p i f l m : ~ lost (AHmac (a_mk a p i f l) m).
Proof.
  intros [H _]. remember (AHmac (a_mk a p i f l) m) as t eqn:E. destruct H; try discriminate E.
  - destruct p0; discriminate E.
  - destruct i0; [destruct p0; discriminate E|]. cbn [a_ck] in E. injection E. intros _ E1. now apply ck_not_mk in E1.
Qed.
Lemma AP_mk a p i f l : AP (a_mk a p i f l) -> mk_bad a p i f l.
Proof.
  intros [H|[[H|[H _]] _]]; [left; apply H|now apply lost_hmac1 in H|right; now apply AP_ck].
Qed.

(* the other direction *)
Lemma bad_known k : bad k -> aknows (APriv k).
Proof. intros [H|H]; [now apply ak_own|]. apply ak_leak; [constructor|exact H]. Qed.
Lemma dh_known j k : bad j \/ bad k -> aknows (adh j k).
Proof. intros [H|H]; [|rewrite adh_comm]; apply ak_dh; now apply bad_known. Qed.
Lemma km_known a : km_bad a -> aknows (a_km a).
Proof.
  intros (H1 & H2 & H3 & H4). unfold a_km. repeat (apply ak_cat; [first [apply ak_const|now apply dh_known]|]).
  destruct (ag_otk a); [now apply dh_known|apply ak_const].
Qed.
Lemma root_known a p : root_bad a p -> aknows (a_root a p).
Proof.
  induction p as [|k q IH]; intros [H|H]; try (apply ak_leak; [constructor|exact H]); cbn [a_root]; apply ak_hkdf.
  - now apply km_known.
  - apply ak_const.
  - apply dh_known. apply H.
  - apply IH. apply H.
Qed.
Lemma ck_up a p i d : aknows (a_ck a p i) -> aknows (a_ck a p (d + i)).
Proof. intros H. induction d; [exact H|]. cbn [a_ck Nat.add]. apply ak_hmac; [exact IHd|apply ak_const]. Qed.
Lemma ck_le a p i j : (i <= j)%nat -> aknows (a_ck a p i) -> aknows (a_ck a p j).
Proof. intros Hle H. replace j with ((j - i) + i)%nat by lia. now apply ck_up. Qed.
Lemma ck_known a p i : chain_bad a p i -> aknows (a_ck a p i).
Proof.
  intros [(j & Hj & H)|H].
  - apply (ck_le a p j); [exact Hj|]. apply ak_leak; [constructor|exact H].
  - apply (ck_le a p 0); [lia|]. cbn [a_ck]. destruct p as [|k q].
    + apply ak_hkdf; [now apply km_known|apply ak_const].
    + apply ak_hkdf; [apply dh_known; apply H|apply root_known; apply H].
Qed.
Theorem mk_exact a p i f l : aknows (a_mk a p i f l) <-> mk_bad a p i f l.
Proof.
  split; [intros H; apply AP_mk; now apply aknows_AP|].
  intros [H|H]; [apply ak_leak; [constructor|exact H]|]. unfold a_mk. apply ak_hkdf; [|apply ak_const].
  apply ak_hmac; [now apply ck_known|apply ak_const].
Qed.

(* A tag that can be computed was put by a client on this body, or its key is exposed. *)
Theorem tag_exact a p i from to body : aknows (a_tag a p i from to body) <->
  mk_bad a p i 32 32 \/
  exists e, sent e /\ a_mk (em_ag e) (em_path e) (em_idx e) 32 32 = a_mk a p i 32 32 /\
    key_ser (em_from e) ++ key_ser (em_to e) ++ em_body e = key_ser from ++ key_ser to ++ body.
Proof.
  split.
  - intros H. apply aknows_AP in H. unfold a_tag in H. cbn [AP] in H.
    destruct H as [(e & He & E)|H].
    + right. exists e. split; [exact He|]. unfold tag_of, a_tag in E. injection E. intros E1 E2.
      split; [|unfold key_ser; cbn [app]; congruence]. unfold a_mk. now rewrite E2.
    + left. apply AP_mk. destruct H as [H|[H _]]; [now apply lost_hmac_mk in H|exact H].
  - intros [H|(e & He & E1 & E2)].
    + unfold a_tag. apply ak_take, ak_hmac; [now apply mk_exact|apply ak_const].
    + unfold a_tag. rewrite <- E1, <- E2. change (aknows (tag_of e)). now apply ak_tag.
Qed.

(* ------------------------------------------------------------------------------------------ *)
(* If no session value was lost, everything rests on the agreement. *)
Definition only_keys : Prop := forall t, leak t -> exists k, t = APriv k.
Lemma only_root a p : only_keys -> root_bad a p -> km_bad a.
Proof.
  intros HO. induction p as [|k q IH]; intros [H|H].
  - apply HO in H. destruct H as [k H]. discriminate H.
  - exact H.
  - apply HO in H. destruct H as [j H]. discriminate H.
  - apply IH. apply H.
Qed.
Lemma only_mk a p i f l : only_keys -> mk_bad a p i f l -> km_bad a.
Proof.
  intros HO [H|[(j & _ & H)|H]].
  - apply HO in H. destruct H as [k H]. discriminate H.
  - apply HO in H. destruct H as [k H]. destruct j; [destruct p|]; discriminate H.
  - destruct p; [exact H|]. eapply only_root; [exact HO|apply H].
Qed.
End View.

(* ------------------------------------------------------------------------------------------ *)
(* Values. priv gives the private key of a public key of a client. *)
Section Eval.
Variable C : crypto.
Variable priv : bytes -> option bytes.
Definition vpriv (k : bytes) : bytes := match priv k with Some x => x | None => [] end.
Fixpoint aeval (t : aterm) : bytes :=
  match t with
  | AConst b => b
  | APriv k => vpriv k
  | ADh j k => match priv j with Some x => dh C x k | None => dh C (vpriv k) j end
  | ACat a b => aeval a ++ aeval b
  | AHkdf i s f n x l => firstn l (skipn x (hkdf C (aeval i) (aeval s) f n))
  | AHmac k m => hmac C (aeval k) (aeval m)
  | ATake n t => firstn n (aeval t)
  end.
End Eval.
