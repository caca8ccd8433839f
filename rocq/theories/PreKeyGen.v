(* Generation and publication of prekeys: /repo/prekeys.go 50-159. Random numbers, key pairs and
   initialisation vectors are arguments. MkdirAll is not modelled, nor is the signed prekey, whose file is
   in another directory. *)
From Coq Require Import ZArith List Lia Bool.
From Verif Require Import Bytes Res Wire Crypto Cbc Messages Session Builder RecordCodec Decimal Storage Encodings.
Import ListNotations.
Open Scope Z_scope.

(* prekeys.go 20-23 preKeyEntity *)
Definition entity : Type := Z * bytes.
(* the fields PreKeys and LastResortKey of preKeyState (31-36) *)
Record pkstate : Type := mkPks { ps_keys : list entity; ps_last : entity }.

(* randID (52-54) *)
Definition randID (r : Z) : Z := Z.land r 16777215.
(* store.go 41 *)
Definition lastResortPreKeyID : Z := 16777215.
(* prekeys.go 82 *)
Definition preKeyBatchSize : nat := 100.

Section P.
Variable C : crypto.
Variable cf : sconf.

(* generatePreKey (73-78) *)
Definition generatePreKey (iv : bytes) (fs : files) (id : Z) (kp : keypair) : res files :=
  StorePreKey C cf iv fs id (mkPkr id (snd kp) (fst kp)).

(* the loop of generatePreKeys (94-99); n iterations are left, i were done *)
Fixpoint batch (n i : nat) (start : Z) (kps : nat -> keypair) (ivs : nat -> bytes) (fs : files) : res files :=
  match n with
  | O => Ok fs
  | S m => let* f := generatePreKey (ivs i) fs ((start + Z.of_nat i) mod 2 ^ 32) (kps i) in batch m (S i) start kps ivs f
  end.
(* generatePreKeys (88-106); r is the random number behind getNextPreKeyID *)
Definition generatePreKeys (r : Z) (kps : nat -> keypair) (ivs : nat -> bytes) (fs : files) : res files :=
  let* f := batch preKeyBatchSize 0 (randID r) kps ivs fs in
  generatePreKey (ivs preKeyBatchSize) f lastResortPreKeyID (kps preKeyBatchSize).

(* loadPreKeys (141-159): a record that cannot be loaded is nil *)
Fixpoint load_names (fs : files) (ns : list bytes) : res (list (option prekey_rec)) :=
  match ns with
  | [] => Ok []
  | n :: t =>
      let* id := sscanf_u32 n in
      let* r := match LoadPreKey C cf fs id with Ok r => Ok (Some r) | Err _ => Ok None | Panic => Panic end in
      let* l := load_names fs t in
      Ok (r :: l)
  end.
Definition loadPreKeys (fs : files) : res (list (option prekey_rec)) := load_names fs (names fs DPreKeys).

(* generatepreKeyEntity (56-61): a nil record is dereferenced *)
Definition generatepreKeyEntity (r : option prekey_rec) : res entity :=
  match r with Some r => Ok (pkr_id r, encodeKey (pkr_pub r)) | None => Panic end.
Fixpoint entities (l : list (option prekey_rec)) : res (list entity) :=
  match l with
  | [] => Ok []
  | r :: t => let* e := generatepreKeyEntity r in let* es := entities t in Ok (e :: es)
  end.
(* generatePreKeyState (124-139): make with length -1 panics *)
Definition generatePreKeyState (fs : files) : res pkstate :=
  let* l := loadPreKeys fs in
  match l with
  | [] => Panic
  | _ => let* es := entities (removelast l) in
         let* e := generatepreKeyEntity (last l None) in
         Ok (mkPks es e)
  end.
End P.
