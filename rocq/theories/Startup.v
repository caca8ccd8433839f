(* Starting the client: Setup and registerDevice (/repo/textsecure.go 262-468), the profile update and the
   profile key (/repo/profiles/profile.go 43-48, 54-117), the sender certificate
   (/repo/transport/unidentifiedCert.go, /repo/unidentifiedAccess/unidentifiedAccess.go 35-58) and the
   configuration file (/repo/config.go 55-75).
   Randomness, the clock, the outcome of every write and the answers of the client application, the
   helper process and the server are arguments of a start. Left out: the account capabilities, logging,
   loadConfig failing, the defaults of loadConfig, opening the store (its keys are given as sconf) and
   setupGroups. The write of a file happens whole or not at all here; see C29 and C212 for torn files. *)
From Coq Require Import ZArith List Lia Bool.
From Verif Require Import Bytes Res Wire Crypto Cbc Messages Session Builder RecordCodec Decimal Storage Encodings PreKeyGen Profile.
Import ListNotations.
Open Scope Z_scope.

(* config.Config (/repo/config/config.go 4-33), the fields a start reads or writes *)
Record cfg := mkCfg { g_tel : bytes; g_uuid : bytes; g_name : bytes; g_pkey : bytes; g_cred : bytes; g_cert : bytes }.
Definition with_pkey (k : bytes) (c : cfg) : cfg := mkCfg (g_tel c) (g_uuid c) (g_name c) k (g_cred c) (g_cert c).
Definition with_name (n : bytes) (c : cfg) : cfg := mkCfg (g_tel c) (g_uuid c) n (g_pkey c) (g_cred c) (g_cert c).
Definition with_cred (x : bytes) (c : cfg) : cfg := mkCfg (g_tel c) (g_uuid c) (g_name c) (g_pkey c) x (g_cert c).
Definition with_cert (x : bytes) (c : cfg) : cfg := mkCfg (g_tel c) (g_uuid c) (g_name c) (g_pkey c) (g_cred c) x.
Definition with_account (t u n : bytes) (c : cfg) : cfg := mkCfg t u n (g_pkey c) (g_cred c) (g_cert c).

(* what a start does that others can see *)
Inductive ev :=
| EvDisk (fs : files) (c : cfg)                    (* a file or the configuration was written: the disk now *)
| EvAccount (tel uuid pass sig : bytes)            (* an account was created with this password and key *)
| EvUpload (ik : bytes) (ps : pkstate) (spk : spk_rec)   (* the server took the keys *)
| EvUse (user pass : bytes)                        (* the credentials of all later requests *)
| EvProfile (uuid key nonce name : bytes)          (* a profile was sent, the name sealed with key and nonce *)
| EvDone.                                          (* client.RegistrationDone was called *)

(* the body of the answer to the certificate request *)
Inductive certreply :=
| CFail (e : err)             (* no answer *)
| CNull                       (* the JSON value null *)
| CBody (cert : bytes).       (* a certificate, or [] if there is none or the body is no JSON *)

Record input := mkIn {
  i_wok : nat -> bool;        (* does the n-th write of a store file succeed *)
  i_cok : nat -> bool;        (* the same for the configuration file *)
  i_iv : nat -> bytes;        (* the initialisation vector of the n-th store file *)
  i_stream : nat -> Z;        (* the bytes math/rand gives in this process *)
  i_rand : Z; i_pass : bytes; i_sig : bytes; i_ident : keypair;     (* crypto/rand *)
  i_prand : Z; i_kps : nat -> keypair; i_skp : keypair; i_srand : Z; i_signature : bytes; i_time : Z;
  i_phone : bytes; i_user : bytes;                                  (* the client application *)
  i_register : res unit; i_verify : res bytes;                      (* the helper process; the UUID *)
  i_upload : res Z;                                                 (* the status of the key upload *)
  i_now : Z;                                                        (* the time in seconds *)
  i_cert : certreply;
  i_issue : bytes -> res bytes }.                                   (* the credential for a profile key *)

(* a running process: the disk, config.ConfigFile, counters and the events, the last one first *)
Record pst := mkPst { t_files : files; t_disk : cfg; t_mem : cfg; t_nw : nat; t_nc : nat; t_drawn : nat; t_log : list ev }.
Definition M (A : Type) : Type := pst -> res A * pst.
Definition ret {A} (a : A) : M A := fun s => (Ok a, s).
Definition fail {A} (e : err) : M A := fun s => (Err e, s).
Definition mbind {A B} (m : M A) (f : A -> M B) : M B := fun s =>
  match m s with
  | (Ok a, s') => f a s'
  | (Err e, s') => (Err e, s')
  | (Panic, s') => (Panic, s')
  end.
Notation "'do' x <- m ; k" := (mbind m (fun x => k)) (at level 200, x name, m at level 100, k at level 200).
(* the error of m is ignored; a panic is not *)
Definition ignore {A} (m : M A) : M unit := fun s =>
  match m s with (Panic, s') => (Panic, s') | (_, s') => (Ok tt, s') end.
(* m's error as a value *)
Definition attempt {A} (m : M A) : M (res A) := fun s =>
  match m s with (Panic, s') => (Panic, s') | (r, s') => (Ok r, s') end.
Definition lift {A} (f : files -> res A) : M A := fun s => (f (t_files s), s).
Definition say (e : ev) : M unit := fun s =>
  (Ok tt, mkPst (t_files s) (t_disk s) (t_mem s) (t_nw s) (t_nc s) (t_drawn s) (e :: t_log s)).
Definition mem : M cfg := fun s => (Ok (t_mem s), s).
Definition modify (g : cfg -> cfg) : M unit := fun s =>
  (Ok tt, mkPst (t_files s) (t_disk s) (g (t_mem s)) (t_nw s) (t_nc s) (t_drawn s) (t_log s)).

Definition passPath : path := (DIdentity, [104;116;116;112;95;112;97;115;115;119;111;114;100]).
Definition sigPath : path :=
  (DIdentity, [104;116;116;112;95;115;105;103;110;97;108;105;110;103;95;107;101;121]).

(* CheckCertificate (unidentifiedAccess.go 37-58). log.Fatalln ends the process, as does the nil pointer
   behind a certificate without expiry. Expires is fixed64, field 3 (/repo/protobuf/SealedSenders.proto
   24-31); field 5 is a message and is parsed as well. *)
Definition CheckCertificate (now : Z) (cert : bytes) : res unit :=
  match cert with
  | [] => Err EOther
  | _ =>
    match parse cert with
    | None => Panic
    | Some f =>
      match parse (match get_len 1 f with Some b => b | None => [] end) with
      | None => Panic
      | Some g =>
        match get_sub 5 g with
        | Some None => Panic
        | _ => match get_i64 3 g with
               | None => Panic
               | Some e => if e <? now mod 2 ^ 64 then Err EOther else Ok tt
               end
        end
      end
    end
  end.

Section S.
Variable C : crypto.
Variable cf : sconf.
Variable I : input.

(* writeFile (store.go 171-177) where the write itself may fail *)
Definition write (p : path) (b : bytes) : M unit := fun s =>
  if i_wok I (t_nw s) then
    match writeFile C cf (i_iv I (t_nw s)) (t_files s) p b with
    | Ok fs => (Ok tt, mkPst fs (t_disk s) (t_mem s) (S (t_nw s)) (t_nc s) (t_drawn s) (EvDisk fs (t_disk s) :: t_log s))
    | Err e => (Err e, s)
    | Panic => (Panic, s)
    end
  else (Err EOther, mkPst (t_files s) (t_disk s) (t_mem s) (S (t_nw s)) (t_nc s) (t_drawn s) (t_log s)).

(* saveConfig (config.go 63-72) *)
Definition saveConfig : M unit := fun s =>
  if i_cok I (t_nc s) then
    (Ok tt, mkPst (t_files s) (t_mem s) (t_mem s) (t_nw s) (S (t_nc s)) (t_drawn s) (EvDisk (t_files s) (t_mem s) :: t_log s))
  else (Err EOther, mkPst (t_files s) (t_disk s) (t_mem s) (t_nw s) (S (t_nc s)) (t_drawn s) (t_log s)).
(* loadConfig (config.go 83-105): the client application reads the file *)
Definition loadConfig : M unit := fun s =>
  (Ok tt, mkPst (t_files s) (t_disk s) (t_disk s) (t_nw s) (t_nc s) (t_drawn s) (t_log s)).

(* rand.Read of math/rand: the next n bytes *)
Definition draw (n : nat) : M bytes := fun s =>
  (Ok (map (i_stream I) (seq (t_drawn s) n)),
   mkPst (t_files s) (t_disk s) (t_mem s) (t_nw s) (t_nc s) (t_drawn s + n) (t_log s)).
(* GenerateProfileKey (profile.go 44-48) *)
Definition GenerateProfileKey : M bytes := draw 32.
(* UpdateProfile (profile.go 55-86) up to the request: the two zkgroup functions (60-67) accept keys of 32
   bytes; a name that is too long (106-108) is an error; then a nonce is drawn and the profile is sent *)
Definition UpdateProfile (key uuid name : bytes) : M unit :=
  if negb (length key =? 32)%nat then fail EOther
  else if (NAME_PADDED_LENGTH <? length name)%nat then fail EOther
  else do nonce <- draw 12; say (EvProfile uuid key nonce name).

(* generatePreKey and generatePreKeys (prekeys.go 73-106); see PreKeyGen.v for the same without failing
   writes *)
Definition genPreKey (id : Z) (kp : keypair) : M unit :=
  write (preKeyPath id) (pkr_serialize (mkPkr id (snd kp) (fst kp))).
Fixpoint genBatch (n i : nat) (start : Z) : M unit :=
  match n with
  | O => ret tt
  | S m => do _ <- genPreKey ((start + Z.of_nat i) mod 2 ^ 32) (i_kps I i); genBatch m (S i) start
  end.
(* generateSignedPreKey (112-122): the error of StoreSignedPreKey is ignored *)
Definition signedRecord : spk_rec := mkSpkr (randID (i_srand I)) (snd (i_skp I)) (fst (i_skp I)) (i_signature I) (i_time I).
Definition genPreKeys : M unit :=
  do _ <- genBatch preKeyBatchSize 0 (randID (i_prand I));
  do _ <- genPreKey lastResortPreKeyID (i_kps I preKeyBatchSize);
  ignore (write (signedPath (spkr_id signedRecord)) (spkr_serialize signedRecord)).

(* response.IsError (/repo/transport/transport.go 66-68) *)
Definition is_error (status : Z) : bool := (status <? 200) || (300 <=? status).

(* registerDevice (textsecure.go 405-468) *)
Definition registerDevice : M unit :=
  do _ <- loadConfig;
  match i_register I with
  | Err e => fail e
  | Panic => fun s => (Panic, s)
  | Ok _ =>
    match i_verify I with
    | Err e => fail e
    | Panic => fun s => (Panic, s)
    | Ok uuid =>
      do _ <- say (EvAccount (i_phone I) uuid (i_pass I) (i_sig I));
      do _ <- modify (with_account (i_phone I) uuid (i_user I));
      do _ <- saveConfig;
      do _ <- genPreKeys;
      do ps <- lift (generatePreKeyState C cf);
      match i_upload I with
      | Err e => fail e
      | Panic => fun s => (Panic, s)
      | Ok st =>
        if is_error st then fail (EServer st)
        else
          do _ <- say (EvUpload (snd (i_ident I)) ps signedRecord);
          do k <- GenerateProfileKey;
          do _ <- modify (with_pkey k);
          do _ <- ignore saveConfig;
          do _ <- say EvDone;
          say EvDone
      end
    end
  end.

(* Setup (279-301): what is done if the store is not valid *)
Definition register : M unit :=
  do _ <- ignore (write regidPath (itoa (generateRegistrationID (i_rand I))));
  do _ <- ignore (write passPath (i_pass I));
  do _ <- ignore (write sigPath (i_sig I));
  do _ <- write identPath (snd (i_ident I) ++ fst (i_ident I));
  registerDevice.

(* renewSenderCertificate (377-388) with GetSenderCertificate (unidentifiedCert.go 17-33): the status of
   the answer is not looked at, an error of Decode neither; null makes the pointer nil *)
Definition renew : M unit :=
  match i_cert I with
  | CFail e => fail e
  | CNull => fun s => (Panic, s)
  | CBody b => do _ <- modify (with_cert b); ignore saveConfig
  end.

Definition zero_uuid : bytes :=
  repeat 48 8 ++ [45] ++ repeat 48 4 ++ [45] ++ repeat 48 4 ++ [45] ++ repeat 48 4 ++ [45] ++ repeat 48 12.
(* GetProfileAndCredential (profile.go 202-279): the checks at its start, then the answer *)
Definition getCredential (uuid key : bytes) : res bytes :=
  if (length key =? 0)%nat then Err EOther
  else if (length uuid =? 0)%nat || beq uuid zero_uuid then Err EOther
  else i_issue I key.

(* store.valid (store.go 349-351) *)
Definition valid (fs : files) : bool := exists_file fs (preKeyPath lastResortPreKeyID).

(* Setup 324-344: the profile key and the name *)
Definition setupProfile : M unit :=
  do c <- mem;
  do ch1 <- (if (length (g_pkey c) =? 0)%nat then
               do k <- GenerateProfileKey; do _ <- modify (with_pkey k); do _ <- ignore saveConfig; ret true
             else ret false);
  do c <- mem;
  do ch2 <- (if beq (g_name c) [] then
               do _ <- modify (with_name (i_user I)); do _ <- ignore saveConfig; ret true
             else ret ch1);
  do _ <- (if ch2 then ret tt
           else do k <- GenerateProfileKey; do _ <- modify (with_pkey k); ignore saveConfig);
  do c <- mem;
  ignore (UpdateProfile (g_pkey c) (g_uuid c) (g_name c)).

(* Setup 346-361: the certificate. The result is whether the variable err of Setup was assigned *)
Definition setupCertificate : M bool :=
  do c <- mem;
  if (length (g_cert c) =? 0)%nat then do _ <- renew; ret true
  else match CheckCertificate (i_now I) (g_cert c) with
       | Ok _ => ret false
       | Err _ => do _ <- renew; ret false
       | Panic => fun s => (Panic, s)
       end.

(* Setup 362-373: the credential *)
Definition setupCredential : M unit :=
  do c <- mem;
  if (length (g_cred c) =? 0)%nat then
    do _ <- ignore (UpdateProfile (g_pkey c) (g_uuid c) (g_name c));
    match getCredential (g_uuid c) (g_pkey c) with
    | Err e => fail e
    | Panic => fun s => (Panic, s)
    | Ok x => do _ <- modify (with_cred x); ignore saveConfig
    end
  else ret tt.

(* Setup (263-376); the error of GetIdentityKeyPair (321) stays in err, which the certificate branch may
   overwrite and which is returned at the end (375). The result of a successful start is the identity in
   use, which is nil if it could not be read. *)
Definition Setup : M (option keypair) :=
  do _ <- loadConfig;
  do v <- lift (fun fs => Ok (valid fs));
  do _ <- (if v : bool then ret tt else register);
  do _ <- lift (fun fs => readNum C cf fs regidPath);
  do pass <- lift (fun fs => readFile C cf fs passPath);
  do _ <- lift (fun fs => readFile C cf fs sigPath);
  do _ <- say EvDone;
  do c <- mem;
  do _ <- say (EvUse (g_uuid c) pass);
  do id <- attempt (lift (GetIdentityKeyPair C cf));
  do _ <- setupProfile;
  do over <- setupCertificate;
  do _ <- setupCredential;
  match id, over with
  | Ok k, _ => ret (Some k)
  | _, true => ret None
  | Err e, false => fail e
  | Panic, _ => fun s => (Panic, s)
  end.
End S.

(* a start of the client: the result, the disk afterwards and the events in order *)
Definition disk : Type := files * cfg.
Definition boot (d : disk) : pst := mkPst (fst d) (snd d) (snd d) 0 0 0 [].
Definition start (C : crypto) (cf : sconf) (I : input) (d : disk) : res (option keypair) * disk * list ev :=
  let (r, s) := Setup C cf I (boot d) in (r, (t_files s, t_disk s), rev (t_log s)).

(* the disk if the process stops when the events l have happened *)
Definition crashed (d : disk) (l : list ev) : disk :=
  fold_left (fun d e => match e with EvDisk fs c => (fs, c) | _ => d end) l d.
