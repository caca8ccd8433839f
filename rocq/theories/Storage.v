(* /repo/store.go: the files behind the stores. *)
From Coq Require Import ZArith List Lia Bool.
From Verif Require Import Bytes Res Wire Crypto Cbc Messages Session Builder RecordCodec Decimal.
Import ListNotations.
Open Scope Z_scope.

(* ---- the file system: the four directories of newStore (42-65) and the files in them. Names are
   joined to a directory by filepath.Join; names containing '/' are outside the model. Errors of the
   operating system other than "no such file" are not modelled. ---- *)
Inductive dir : Type := DIdentity | DPreKeys | DSigned | DSessions.
Definition dir_eqb (a b : dir) : bool :=
  match a, b with
  | DIdentity, DIdentity | DPreKeys, DPreKeys | DSigned, DSigned | DSessions, DSessions => true
  | _, _ => false
  end.
Definition path : Type := dir * bytes.
Definition path_eqb (a b : path) : bool := dir_eqb (fst a) (fst b) && beq (snd a) (snd b).
Definition files : Type := list (path * bytes).

Fixpoint raw_read (fs : files) (p : path) : option bytes :=
  match fs with
  | [] => None
  | (q, b) :: t => if path_eqb q p then Some b else raw_read t p
  end.
Definition raw_remove (fs : files) (p : path) : files := filter (fun e => negb (path_eqb (fst e) p)) fs.
Definition raw_write (fs : files) (p : path) (b : bytes) : files := (p, b) :: raw_remove fs p.
(* store.go 342-345 exists *)
Definition exists_file (fs : files) (p : path) : bool :=
  match raw_read fs p with Some _ => true | None => false end.

(* filepath.Walk of a directory visits its files in lexical order of names *)
Fixpoint insert_name (n : bytes) (l : list bytes) : list bytes :=
  match l with
  | [] => [n]
  | m :: t => if blt m n then m :: insert_name n t else n :: l
  end.
Definition names (fs : files) (d : dir) : list bytes :=
  fold_right insert_name [] (map (fun e => snd (fst e)) (filter (fun e => dir_eqb (fst (fst e)) d) fs)).

(* store.go 30-40: the fields of the store other than the directories *)
Record sconf : Type := mkConf { c_plain : bool; c_aes : bytes; c_mac : bytes }.

Section S.
Variable C : crypto.
Variable cf : sconf.

(* store.go 131-142 encrypt *)
Definition st_encrypt (iv pt : bytes) : res bytes :=
  if c_plain cf then Ok pt
  else let* e := aesEncrypt C (c_aes cf) iv pt in Ok (appendMAC C (c_mac cf) e).
(* store.go 148-160 decrypt. ciphertext[:macPos] panics if macPos is negative. *)
Definition st_decrypt (ct : bytes) : res bytes :=
  if c_plain cf then Ok ct
  else if zlen ct <? 32 then Panic
  else
    let macPos := (length ct - 32)%nat in
    if Cbc.verifyMAC C (c_mac cf) (firstn macPos ct) (skipn macPos ct)
    then aesDecrypt C (c_aes cf) (firstn macPos ct)
    else Err EMac.

(* store.go 162-169 readFile and 171-177 writeFile *)
Definition readFile (fs : files) (p : path) : res bytes :=
  match raw_read fs p with
  | None => Err ENotFound
  | Some b => st_decrypt b
  end.
Definition writeFile (iv : bytes) (fs : files) (p : path) (b : bytes) : res files :=
  let* e := st_encrypt iv b in Ok (raw_write fs p e).

(* store.go 95-97, 275-281 *)
Definition preKeyPath (id : Z) : path := (DPreKeys, pad9 id).
Definition signedPath (id : Z) : path := (DSigned, pad9 id).
(* store.go 400-402 *)
Definition session_name (rid : bytes) (dev : Z) : bytes := rid ++ 95 :: udec dev.
Definition sessionPath (rid : bytes) (dev : Z) : path := (DSessions, session_name rid dev).
(* "remote_" ++ id, "regid", "identity_key" *)
Definition str_remote : bytes := [114;101;109;111;116;101;95].
Definition remotePath (rid : bytes) : path := (DIdentity, str_remote ++ rid).
Definition regidPath : path := (DIdentity, [114;101;103;105;100]).
Definition identPath : path := (DIdentity, [105;100;101;110;116;105;116;121;95;107;101;121]).

(* store.go 108-123, 181-191 *)
Definition readNum (fs : files) (p : path) : res Z :=
  let* b := readFile fs p in
  match atoi b with Some v => Ok (v mod 2 ^ 32) | None => Err EBadFormat end.
Definition writeNum (iv : bytes) (fs : files) (p : path) (v : Z) : res files := writeFile iv fs p (itoa v).

(* store.go 193-210 *)
Definition GetIdentityKeyPair (fs : files) : res keypair :=
  let* b := readFile fs identPath in
  if Nat.eqb (length b) 64 then Ok (skipn 32 b, firstn 32 b) else Err EBadFormat.
Definition SetIdentityKeyPair (iv : bytes) (fs : files) (kp : keypair) : res files :=
  writeFile iv fs identPath (snd kp ++ fst kp).

(* store.go 212-233 *)
Definition SaveIdentity (iv : bytes) (fs : files) (rid k : bytes) : res files := writeFile iv fs (remotePath rid) k.
Definition IsTrusted (trust_all : bool) (fs : files) (rid k : bytes) : res bool :=
  if trust_all then Ok true
  else if negb (exists_file fs (remotePath rid)) then Ok true
  else match readFile fs (remotePath rid) with
       | Ok b => Ok (beq b k)
       | Err _ => Ok false
       | Panic => Panic
       end.

(* store.go 283-340, 350-366 *)
Definition LoadPreKey (fs : files) (id : Z) : res prekey_rec :=
  let* b := readFile fs (preKeyPath id) in LoadPreKeyRecord b.
Definition StorePreKey (iv : bytes) (fs : files) (id : Z) (r : prekey_rec) : res files :=
  writeFile iv fs (preKeyPath id) (pkr_serialize r).
Definition RemovePreKey (fs : files) (id : Z) : files := raw_remove fs (preKeyPath id).
Definition LoadSignedPreKey (fs : files) (id : Z) : res spk_rec :=
  let* b := readFile fs (signedPath id) in LoadSignedPreKeyRecord b.
Definition StoreSignedPreKey (iv : bytes) (fs : files) (id : Z) (r : spk_rec) : res files :=
  writeFile iv fs (signedPath id) (spkr_serialize r).

(* store.go 418-430: any read error gives a new record *)
Definition F_LoadSession (fs : files) (rid : bytes) (dev : Z) : res srecord :=
  match readFile fs (sessionPath rid dev) with
  | Ok b => LoadSessionRecord b
  | Err _ => Ok NewSessionRecord
  | Panic => Panic
  end.
(* store.go 432-439 *)
Definition F_StoreSession (iv : bytes) (fs : files) (rid : bytes) (dev : Z) (r : srecord) : res files :=
  writeFile iv fs (sessionPath rid dev) (Serialize r).
End S.

(* store.go 404-416: the text after the last '_' (the whole if there is none), and its Atoi, an error
   giving 0 *)
Fixpoint after_underscore (l : bytes) : bytes :=
  match l with
  | [] => []
  | c :: t => if existsb (Z.eqb 95) t then after_underscore t else if c =? 95 then t else l
  end.
Definition GetSubDeviceSessions (fs : files) (rid : bytes) : list Z :=
  map (fun n => match atoi (after_underscore n) with Some v => v mod 2 ^ 32 | None => 0 end) (names fs DSessions).
(* store.go 451-457 *)
Definition DeleteAllSessions (fs : files) (rid : bytes) : files :=
  fold_left (fun f dev => raw_remove f (sessionPath rid dev)) (GetSubDeviceSessions fs rid) fs.

(* textsecure.go 43-45 *)
Definition generateRegistrationID (rand : Z) : Z := Z.land rand 16383.

(* ioutil.WriteFile opens with O_TRUNC and then writes: what the file can hold if the process stops
   during the call *)
Definition torn (old : option bytes) (new : bytes) (now : option bytes) : Prop :=
  now = old \/ exists k, (k <= length new)%nat /\ now = Some (firstn k new).
