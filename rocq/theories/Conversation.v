(* Two parties using the session API of Builder.v, and a small specification of what their users
   expect, free of keys and ciphertexts. *)
From Coq Require Import ZArith List Lia Bool.
From Verif Require Import Bytes Res Wire Crypto Cbc Messages Session Builder.
Import ListNotations.
Open Scope Z_scope.

Inductive side : Type := SA | SB.
Definition other (x : side) : side := match x with SA => SB | SB => SA end.
Definition side_eqb (x y : side) : bool := match x, y with SA, SA | SB, SB => true | _, _ => false end.

(* One step of a schedule. Messages are numbered in the order they are sent, whoever sends. *)
Inductive action : Type :=
| Send (x : side) (pt : bytes)
| Deliver (j : nat) (rnd : nat -> bytes)                                 (* message j to its addressee *)
| Inject (x : side) (ty : mtype) (b : bytes) (rnd : nat -> bytes).       (* any bytes handed to x *)

(* ------------------------------------------------------------------------------------------ *)
(* Specification. A's ratchet keys are numbered 1,3,5,... and B's 2,4,6,...; a party takes its
   next key when it first hears from the other's newest. Every message is identified by the number
   of its key and its position among the messages sent with that key. *)
Record smsg : Type := mkSmsg { sm_from : side; sm_epoch : nat; sm_idx : nat; sm_pt : bytes }.
Record spec : Type := mkSpec {
  sp_epoch : side -> nat;        (* number of the party's current key *)
  sp_count : side -> nat;        (* messages sent with it *)
  sp_next : nat -> nat;          (* per key: one more than the highest position delivered *)
  sp_sent : list smsg;
  sp_got : list nat }.           (* delivered messages *)

Definition spec0 : spec :=
  mkSpec (fun x => match x with SA => 1%nat | SB => 0%nat end) (fun _ => 0%nat) (fun _ => 0%nat) [] [].

(* the chain with this key number is not yet forgotten by a party that is at key n *)
Definition kept (n k : nat) : bool := (n <=? k + 9)%nat.

Definition deliverable (sp : spec) (j : nat) : bool :=
  match nth_error (sp_sent sp) j with
  | None => false
  | Some m =>
      negb (existsb (Nat.eqb j) (sp_got sp))
      && kept (sp_epoch sp (other (sm_from m))) (sm_epoch m)
      && (sm_idx m <=? sp_next sp (sm_epoch m) + 2000)%nat
  end.

(* a message delivered before, of a chain that is still kept *)
Definition repeated (sp : spec) (j : nat) : bool :=
  match nth_error (sp_sent sp) j with
  | None => false
  | Some m => existsb (Nat.eqb j) (sp_got sp) && kept (sp_epoch sp (other (sm_from m))) (sm_epoch m)
  end.

Definition upd_side {A} (f : side -> A) (x : side) (v : A) : side -> A :=
  fun y => if side_eqb x y then v else f y.
Definition upd_nat {A} (f : nat -> A) (x : nat) (v : A) : nat -> A :=
  fun y => if Nat.eqb x y then v else f y.

Definition spec_step (sp : spec) (a : action) : spec :=
  match a with
  | Send x pt =>
      mkSpec (sp_epoch sp) (upd_side (sp_count sp) x (S (sp_count sp x))) (sp_next sp)
        (sp_sent sp ++ [mkSmsg x (sp_epoch sp x) (sp_count sp x) pt]) (sp_got sp)
  | Deliver j _ =>
      if deliverable sp j then
        match nth_error (sp_sent sp) j with
        | None => sp
        | Some m =>
            let y := other (sm_from m) in
            let k := sm_epoch m in
            let nxt := upd_nat (sp_next sp) k (Nat.max (sp_next sp k) (S (sm_idx m))) in
            if (sp_epoch sp y <? k)%nat
            then mkSpec (upd_side (sp_epoch sp) y (S k)) (upd_side (sp_count sp) y 0%nat) nxt
                   (sp_sent sp) (j :: sp_got sp)
            else mkSpec (sp_epoch sp) (sp_count sp) nxt (sp_sent sp) (j :: sp_got sp)
        end
      else sp
  | Inject _ _ _ _ => sp
  end.

(* ------------------------------------------------------------------------------------------ *)
(* Implementation *)
Record sys : Type := mkSys { y_w : side -> world; y_net : list (side * mtype * bytes) }.

Section Impl.
Variable C : crypto.
Variable peer : side -> bytes * Z.       (* the name and device under which x stores the other *)

(* who acts, with what result, and what is written *)
Definition perform (y : sys) (a : action) : side * res bytes * list eff :=
  match a with
  | Send x pt =>
      let (r, l) := SessionEncryptMessage C (y_w y x) (fst (peer x)) (snd (peer x)) pt in
      (x, (let* v := r in Ok (fst v)), l)
  | Deliver j rnd =>
      match nth_error (y_net y) j with
      | None => (SA, Err EOther, [])
      | Some (f, ty, b) =>
          let x := other f in
          let (r, l) := receive C (y_w y x) (fst (peer x)) (snd (peer x)) ty b rnd in (x, r, l)
      end
  | Inject x ty b rnd =>
      let (r, l) := receive C (y_w y x) (fst (peer x)) (snd (peer x)) ty b rnd in (x, r, l)
  end.

Definition sent_type (y : sys) (a : action) : mtype :=
  match a with
  | Send x pt =>
      match SessionEncryptMessage C (y_w y x) (fst (peer x)) (snd (peer x)) pt with
      | (Ok (_, ty), _) => ty | _ => CIPHERTEXT end
  | _ => CIPHERTEXT
  end.

Definition step (y : sys) (a : action) : sys :=
  let '(x, r, l) := perform y a in
  mkSys (upd_side (y_w y) x (apply_effs (y_w y x) l))
        (match a, r with
         | Send _ _, Ok b => y_net y ++ [(x, sent_type y a, b)]
         | _, _ => y_net y
         end).
End Impl.

(* ------------------------------------------------------------------------------------------ *)
(* The start: B has published a signed prekey and possibly a one-time prekey; A has built a session
   from B's bundle. *)
Record setup : Type := mkSetup {
  st_peer : side -> bytes * Z;
  st_w : side -> world;             (* stores before the session is built *)
  st_spk : bytes;                   (* B's signed prekey, private half *)
  st_spkid : Z;
  st_otk : option bytes;            (* B's one-time prekey, private half *)
  st_pkid : Z;
  st_sig : bytes;
  st_rbase : bytes;                 (* randomness of A's two fresh keys *)
  st_rratchet : bytes }.

Section Start.
Variable C : crypto.
Variable st : setup.

Definition idpriv (x : side) : bytes := fst (w_ident (st_w st x)).
Definition idpub (x : side) : bytes := snd (w_ident (st_w st x)).

Definition the_bundle : bundle :=
  mkBundle (w_reg (st_w st SB)) (snd (st_peer st SA)) (st_pkid st) (option_map (basepub C) (st_otk st))
    (st_spkid st) (Some (basepub C (st_spk st))) (st_sig st) (idpub SB).

Definition base_pub : bytes := basepub C (clamp (st_rbase st)).

Record setup_ok : Prop := {
  so_ident : forall x, idpub x = basepub C (idpriv x) /\ length (idpriv x) = 32%nat;
  so_reg : forall x, 0 <= w_reg (st_w st x) < 2 ^ 32;
  so_trust : forall x, IsTrustedIdentity (st_w st x) (fst (st_peer st x)) (idpub (other x)) = true;
  so_spk : w_spk (st_w st SB) (st_spkid st) = Some (st_spk st, basepub C (st_spk st));
  so_spkid : 0 < st_spkid st < 2 ^ 31;
  so_spklen : length (st_spk st) = 32%nat;
  so_otk : match st_otk st with
           | None => st_pkid st = 0
           | Some k => 0 < st_pkid st < 2 ^ 32 /\ length k = 32%nat /\
                       w_pre (st_w st SB) (st_pkid st) = Some (k, basepub C k)
           end;
  so_sig : sigok C (idpub SB) (key_ser (basepub C (st_spk st))) (st_sig st) = true;
  so_rnd : length (st_rbase st) = 32%nat /\ length (st_rratchet st) = 32%nat;
  (* B's record for A, if any, does not know this base key *)
  so_new : hasSessionState (LoadSession (st_w st SB) (fst (st_peer st SB)) (snd (st_peer st SB)))
             3 (key_ser base_pub) = false }.

Definition start : sys :=
  let (_, l) := BuildSenderSession C (st_w st SA) (fst (st_peer st SA)) (snd (st_peer st SA)) the_bundle
                  (st_rbase st) (st_rratchet st) in
  mkSys (upd_side (st_w st) SA (apply_effs (st_w st SA) l)) [].

(* neither side had a record for the other *)
Definition no_history : Prop :=
  forall x, w_sess (st_w st x) (fst (st_peer st x)) (snd (st_peer st x)) = None.

(* refused, and nothing written except possibly the peer's own identity key again *)
Definition refused (y : sys) (a : action) : Prop :=
  match perform C (st_peer st) y a with
  | (x, r, l) =>
      (exists e, r = Err e) /\
      Forall (fun e => e = ESaveIdentity (fst (st_peer st x)) (idpub (other x))) l
  end.

(* What is assumed about each step. Sending is only possible for a party that has a session.
   Whatever is neither a deliverable message nor a repetition has to be refused; that it is refused
   is a matter of the MAC (Prop_C07), not of this theorem. *)
Definition assumed (y : sys) (sp : spec) (a : action) : Prop :=
  match a with
  | Send x pt => sp_epoch sp x <> 0%nat /\ wfb pt /\ zlen pt < 2 ^ 60
  | Deliver j rnd =>
      length (rnd 0%nat) = 32%nat /\
      (deliverable sp j = true \/ (no_history /\ repeated sp j = true) \/ refused y a)
  | Inject _ _ _ _ => refused y a
  end.

Fixpoint admissible (y : sys) (sp : spec) (acts : list action) : Prop :=
  match acts with
  | [] => True
  | a :: t => assumed y sp a /\ admissible (step C (st_peer st) y a) (spec_step sp a) t
  end.

(* the ratchet public key a step may generate *)
Definition fresh_pub (a : action) : list bytes :=
  match a with Deliver _ rnd => [basepub C (clamp (rnd 0%nat))] | _ => [] end.

(* all ratchet keys of the conversation are different, and there are fewer than 2^32 steps *)
Definition good_schedule (acts : list action) : Prop :=
  Z.of_nat (length acts) < 2 ^ 32 /\
  NoDup (basepub C (st_spk st) :: basepub C (clamp (st_rratchet st)) :: flat_map fresh_pub acts).

Definition run (y : sys) (acts : list action) : sys := fold_left (step C (st_peer st)) acts y.
Definition spec_run (sp : spec) (acts : list action) : spec := fold_left spec_step acts sp.

(* What the users expect of a step *)
Definition expected (y : sys) (sp : spec) (a : action) : Prop :=
  match perform C (st_peer st) y a with
  | (x, r, l) =>
    match a with
    | Send _ _ => is_ok r = true
    | Deliver j _ =>
        (deliverable sp j = true ->
           exists m, nth_error (sp_sent sp) j = Some m /\ r = Ok (sm_pt m) /\ x = other (sm_from m)) /\
        (no_history -> repeated sp j = true -> (exists e, r = Err e) /\ l = [])
    | Inject _ _ _ _ => True
    end
  end.
End Start.
