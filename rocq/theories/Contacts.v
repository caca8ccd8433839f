(* The contact table: /repo/contacts/contacts.go 16-178, /repo/server.go 613-719 (contact synchronisation)
   and /repo/profiles/profile.go 383-467 (refreshing a profile). The map is an association list without
   repeated keys; the YAML file is the list of contacts written to it (the YAML library is trusted to give
   back what it was given). *)
From Coq Require Import ZArith List Lia Bool.
From Verif Require Import Bytes Res Crypto Gcm Decimal Encodings Regex Profile.
Import ListNotations.
Open Scope Z_scope.

(* Contact (17-38); the fields no function here looks at are in p_rest *)
Record person := mkPerson {
  p_uuid : bytes; p_tel : bytes; p_pkey : bytes; p_name : bytes; p_username : bytes;
  p_registered : bool; p_hasavatar : bool; p_avatar : bytes; p_about : bytes; p_emoji : bytes; p_rest : bytes }.
Definition no_person : person := mkPerson [] [] [] [] [] false false [] [] [] [].

Definition table := list (bytes * person).
Fixpoint lookup (k : bytes) (t : table) : option person :=
  match t with
  | [] => None
  | (k', c) :: r => if beq k k' then Some c else lookup k r
  end.
(* Contacts[k] = c *)
Fixpoint put (k : bytes) (c : person) (t : table) : table :=
  match t with
  | [] => [(k, c)]
  | (k', c') :: r => if beq k k' then (k, c) :: r else (k', c') :: put k c r
  end.

(* LoadContacts (54-63): c.UUID[0] != 0 compares with the byte 0; && and || evaluate left to right, so the
   indices are in range *)
Definition load_key (c : person) : bytes :=
  let u := p_uuid c in
  if negb (beq u []) && negb (beq u [48]) && (negb (hd 0 u =? 0) || negb (last u 0 =? 0)) then u else p_tel c.
Definition LoadContacts (cs : list person) (t : table) : table :=
  fold_left (fun t c => put (load_key c) c t) cs t.

(* contactsToYaml (107-113): ranging over a map yields its values in any order *)
Definition contactsToYaml (order : table -> table) (t : table) : list person := map snd (order t).

(* The process state and the file. WriteContactsToPath (98-106) fails or replaces the file. *)
Record cstate := mkCs { cs_table : table; cs_file : list person }.
Definition WriteContactsToPath (w : option (table -> table)) (s : cstate) : cstate * res unit :=
  match w with
  | Some order => (mkCs (cs_table s) (contactsToYaml order (cs_table s)), Ok tt)
  | None => (s, Err EOther)
  end.
(* a new process: the map starts empty (line 50) and ReadContacts (68-84) loads the file *)
Definition restart (s : cstate) : cstate := mkCs (LoadContacts (cs_file s) []) (cs_file s).

Definition with_pkey (k : bytes) (c : person) : person :=
  mkPerson (p_uuid c) (p_tel c) k (p_name c) (p_username c) (p_registered c) (p_hasavatar c) (p_avatar c) (p_about c)
    (p_emoji c) (p_rest c).

(* UpdateProfileKey (163-178) *)
Definition UpdateProfileKey (src key : bytes) (w : option (table -> table)) (s : cstate) : cstate * res unit :=
  let c := match lookup src (cs_table s) with
           | Some c => with_pkey key c
           | None => mkPerson src [] key src [] false false [] [] [] []
           end in
  WriteContactsToPath w (mkCs (put src c (cs_table s)) (cs_file s)).

(* GetContact (180-182): the zero value if there is none *)
Definition GetContact (k : bytes) (s : cstate) : person := match lookup k (cs_table s) with Some c => c | None => no_person end.

(* ---- contact discovery ---- *)

(* the expression of /repo/server.go 649:
   ^(?:(?:\(?(?:00|\+)([1-4]\d\d|[1-9]\d?)\)?)?[\-\.\ \\\/]?)?((?:\(?\d{1,}\)?[\-\.\ \\\/]?){0,})
    (?:[\-\.\ \\\/]?(?:#|ext\.?|extension|x)[\-\.\ \\\/]?(\d+))?$ *)
Definition r_sep : re := ropt (Cls [(45, 45); (46, 46); (32, 32); (92, 92); (47, 47)]).
Definition r_open : re := ropt (byte 40).
Definition r_close : re := ropt (byte 41).
Fixpoint text (s : bytes) : re := match s with [] => Eps | c :: t => Cat (byte c) (text t) end.
Definition r_country : re :=
  Cat r_open (Cat (Alt (text [48; 48]) (byte 43))
    (Cat (Alt (Cat (Cls [(49, 52)]) (Cat digit digit)) (Cat (Cls [(49, 57)]) (ropt digit))) r_close)).
Definition r_group : re := Cat r_open (Cat (plus digit) (Cat r_close r_sep)).
Definition r_ext : re :=
  Cat r_sep (Cat (Alt (byte 35) (Alt (Cat (text [101; 120; 116]) (ropt (byte 46)))
    (Alt (text [101; 120; 116; 101; 110; 115; 105; 111; 110]) (byte 120)))) (Cat r_sep (plus digit))).
Definition phone_re : re := Cat (ropt (Cat (ropt r_country) r_sep)) (Cat (Star r_group) (ropt r_ext)).

(* tokens (server.go 646-659) *)
Definition memb (x : bytes) (l : list bytes) : bool := existsb (beq x) l.
Fixpoint tokens_of (seen : list bytes) (cs : list person) : list bytes :=
  match cs with
  | [] => []
  | c :: r =>
      let t := p_tel c in
      if negb (beq t []) && rmatch phone_re t && negb (memb t seen) then t :: tokens_of (t :: seen) r
      else tokens_of seen r
  end.

(* parse and toByteArray (contactDiscoveryCrypto.go 103-111); uint64 of a negative number wraps around *)
Definition toByteArray (i : Z) : bytes := be_enc 8 (i mod 2 ^ 64).
(* buildQueryDataWithNonce (91-101) *)
Fixpoint addressData (l : list bytes) : res bytes :=
  match l with
  | [] => Ok []
  | a :: t => match atoi a with
              | None => Err EBadFormat
              | Some i => let* r := addressData t in Ok (toByteArray i ++ r)
              end
  end.
Definition buildQueryDataWithNonce (l : list bytes) (nonce : bytes) : res bytes :=
  let* d := addressData l in Ok (nonce ++ d).

Section D.
Variable G : gcm.
Variable sha256 : bytes -> bytes.

(* aesEncryptNonce (151-165): iv, data, mac *)
Definition aesEncryptNonce (key aad data nonce : bytes) : res (bytes * bytes * bytes) :=
  if negb (aes_key_ok key) then Err EKeySize
  else if negb (length nonce =? 12)%nat then Panic
  else let c := seal G key nonce aad data in
       Ok (nonce, firstn (length c - 16) c, skipn (length c - 16) c).
(* aesDecrypt (189-200) *)
Definition cds_decrypt (key nonce data mac aad : bytes) : res bytes :=
  if negb (aes_key_ok key) then Err EKeySize
  else if negb (length nonce =? 12)%nat then Panic
  else match gopen G key nonce aad (data ++ mac) with Some p => Ok p | None => Err EMac end.

(* an attestation: request id, client key, server key *)
Record attest := mkAttest { at_req : bytes; at_client : bytes; at_server : bytes }.
Record sealedpart := mkPart { sp_iv : bytes; sp_data : bytes; sp_mac : bytes; sp_req : bytes }.
Record discovery := mkDisc { dr_count : Z; dr_commitment : bytes; dr_body : sealedpart; dr_envs : list sealedpart }.

(* buildQueryEnvelope (121-132) over the attestations, with one nonce each *)
Fixpoint envelopes (key : bytes) (l : list (attest * bytes)) : res (list sealedpart) :=
  match l with
  | [] => Ok []
  | (a, n) :: t =>
      let* (x, m) := aesEncryptNonce (at_client a) (at_req a) key n in
      let* r := envelopes key t in
      Ok (mkPart (fst x) (snd x) m (at_req a) :: r)
  end.
(* CreateDiscoveryRequest (43-72); the random key and nonces are arguments *)
Definition CreateDiscoveryRequest (book : list bytes) (ats : list (attest * bytes)) (key nonce iv : bytes) : res discovery :=
  let* q := buildQueryDataWithNonce book nonce in
  let* (x, m) := aesEncryptNonce key [] q iv in
  let* es := envelopes key ats in
  Ok (mkDisc (zlen book) (sha256 q) (mkPart (fst x) (snd x) m []) es).

(* GetDiscoveryResponseData (172-180); the order of the map is the order of the list *)
Fixpoint GetDiscoveryResponseData (r : sealedpart) (ats : list attest) : res bytes :=
  match ats with
  | [] => Err EOther
  | a :: t => if beq (sp_req r) (at_req a) then cds_decrypt (at_server a) (sp_iv r) (sp_data r) (sp_mac r) []
              else GetDiscoveryResponseData r t
  end.

(* findIndexByE147 (620-627) and the assignments to localContacts[index] (690-711), as a change of the
   first contact with that number; decoding a quoted-printable name is left out *)
Definition zero_uuid : bytes := Eval vm_compute in match idToHexUUID (zeros 16) with Ok u => u | _ => [] end.
Definition found (uuid : bytes) (c : person) : person :=
  mkPerson uuid (p_tel c) (p_pkey c) (p_name c) (p_username c) (negb (beq uuid zero_uuid)) (p_hasavatar c) (p_avatar c)
    (p_about c) (p_emoji c) (p_rest c).
Fixpoint assign (phone uuid : bytes) (cs : list person) : list person * option person :=
  match cs with
  | [] => ([], None)
  | c :: r => if beq (p_tel c) phone then (found uuid c :: r, Some (found uuid c))
              else let (r', o) := assign phone uuid r in (c :: r', o)
  end.
(* the loop (688-712): slot i of the answer is responseData[16i : 16i+16] *)
Fixpoint merge (toks : list bytes) (data : bytes) (cs : list person) (t : table) : res (list person * table) :=
  match toks with
  | [] => Ok (cs, t)
  | phone :: r =>
      if (length data <? 16)%nat then Panic
      else
        let* u := idToHexUUID (firstn 16 data) in
        match assign phone u cs with
        | (_, None) => Panic
        | (cs', Some c) => merge r (skipn 16 data) cs' (put (if p_registered c then p_uuid c else p_tel c) c t)
        end
  end.

(* GetRegisteredContacts (631-719). serve stands for the authorisation, the attestation and the exchange
   with the directory: it is given the request builder and yields the answer with the attestations. *)
Definition GetRegisteredContacts (local : list person) (ats : list (attest * bytes)) (key nonce iv : bytes)
    (serve : discovery -> res sealedpart) (w : option (table -> table)) (s : cstate) : cstate * res (list person) :=
  let toks := tokens_of [] local in
  match toks with
  | [] => (s, Err EOther)
  | _ =>
      match (let* q := CreateDiscoveryRequest toks ats key nonce iv in
             let* a := serve q in GetDiscoveryResponseData a (map fst ats)) with
      | Err e => (s, Err e)
      | Panic => (s, Panic)
      | Ok data =>
          match merge toks data local [] with
          | Ok (cs, t) => let (s', _) := WriteContactsToPath w (mkCs t (cs_file s)) in (s', Ok cs)
          | Err e => (s, Err e)
          | Panic => (s, Panic)
          end
      end
  end.
End D.

(* GetProfileUUID (/repo/profiles/profile.go 383-467), the part from line 446 that changes the table; uuid is
   the contact asked for, the rest is what the server answered (decrypted if there was a profile key) *)
Record answer := mkAnswer { an_uuid : bytes; an_name : bytes; an_about : bytes; an_emoji : bytes; an_avatar : option bytes }.
Definition refreshed (a : answer) (c : person) : person :=
  mkPerson (an_uuid a) (p_tel c) (p_pkey c) (if beq (p_name c) [] then an_name a else p_name c) (an_name a)
    (p_registered c)
    (match an_avatar a with Some _ => true | None => p_hasavatar c end)
    (match an_avatar a with Some b => b | None => p_avatar c end)
    (if beq (an_about a) [] then p_about c else an_about a)
    (if beq (an_emoji a) [] then p_emoji c else an_emoji a) (p_rest c).
Definition GetProfileUUID (uuid : bytes) (r : person -> res answer) (w : option (table -> table)) (s : cstate) : cstate * res unit :=
  let c := GetContact uuid s in
  match r c with
  | Err e => (s, Err e)
  | Panic => (s, Panic)
  | Ok a => let (s', _) := WriteContactsToPath w (mkCs (put (an_uuid a) (refreshed a c) (cs_table s)) (cs_file s)) in (s', Ok tt)
  end.
