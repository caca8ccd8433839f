(* The images of profiles: /repo/profiles/avatars.go, and what /repo/profiles/profile.go 345-467 does with them. The answers of the
   servers and of the file system are arguments. Paths are absolute; a path that Clean has been applied to is the list of its
   components. *)
From Coq Require Import ZArith List Lia Bool.
From Verif Require Import Bytes Res Crypto Gcm Contacts.
Import ListNotations.
Open Scope Z_scope.

(* ---- paths (path/filepath of the Go library) ---- *)
Definition path := list bytes.
Fixpoint path_eqb (a b : path) : bool :=
  match a, b with [], [] => true | x :: a', y :: b' => beq x y && path_eqb a' b' | _, _ => false end.
(* the parts of a text between the slashes *)
Fixpoint parts (s : bytes) : list bytes :=
  match s with
  | [] => [[]]
  | c :: t => if c =? 47 then [] :: parts t else match parts t with p :: ps => (c :: p) :: ps | [] => [[c]] end
  end.
(* Clean of an absolute path: empty parts and single dots vanish, two dots take the part before them away, above the root they
   vanish *)
Definition clean_part (acc : path) (p : bytes) : path :=
  if beq p [] || beq p [46] then acc else if beq p [46; 46] then removelast acc else acc ++ [p].
Definition Join (dir : path) (name : bytes) : path := fold_left clean_part (parts name) dir.

(* ---- the files, and the variable avatarsPath (22-24; None is the empty string) ---- *)
Definition filesystem := list (path * bytes).
Fixpoint read (p : path) (f : filesystem) : option bytes :=
  match f with [] => None | (q, b) :: r => if path_eqb p q then Some b else read p r end.
Fixpoint write (p : path) (b : bytes) (f : filesystem) : filesystem :=
  match f with [] => [(p, b)] | (q, c) :: r => if path_eqb p q then (p, b) :: r else (q, c) :: write p b r end.
Record avstate := mkAv { av_path : option path; av_files : filesystem }.
(* the configured StorageDir; what MkdirAll, Create and Write do: a short write is an error and leaves that many bytes *)
Record io := mkIo { io_storage : path; io_mkdir : bool; io_create : path -> bool; io_short : option nat }.

(* "avatars" *)
Definition str_avatars : bytes := [97; 118; 97; 116; 97; 114; 115].

(* setupAvatarsPath (111-118): the variable is set before the directory is made *)
Definition setupAvatarsPath (o : io) (s : avstate) : avstate * bool :=
  (mkAv (Some (Join (io_storage o) str_avatars)) (av_files s), io_mkdir o).

(* the beginning of the functions from line 40 on: a UUID, a directory and a path *)
Definition avatar_file (o : io) (uuid : bytes) (s : avstate) : avstate * res path :=
  match uuid with
  | [] => (s, Err EOther)
  | _ =>
      match av_path s with
      | Some d => (s, Ok (Join d uuid))
      | None =>
          let (s', ok) := setupAvatarsPath o s in
          if ok then (s', Ok (Join (Join (io_storage o) str_avatars) uuid)) else (s', Err EOther)
      end
  end.
(* GetLocalAvatarPath (40-53) *)
Definition GetLocalAvatarPath := avatar_file.
(* GetLocalAvatar (54-71), with what reading the file then gives *)
Definition GetLocalAvatar (o : io) (uuid : bytes) (s : avstate) : avstate * res bytes :=
  let (s', p) := avatar_file o uuid s in
  (s', match p with Ok p => match read p (av_files s') with Some b => Ok b | None => Err ENotFound end | Err e => Err e | Panic => Panic end).
(* saveLocalAvatar (82-109) *)
Definition saveLocalAvatar (o : io) (uuid avatar : bytes) (s : avstate) : avstate * res unit :=
  match uuid, avatar with
  | [], _ => (s, Err EOther)
  | _, [] => (s, Err EOther)
  | _, _ =>
      match avatar_file o uuid s with
      | (s', Ok p) =>
          if io_create o p then
            match io_short o with
            | None => (mkAv (av_path s') (write p avatar (av_files s')), Ok tt)
            | Some n => (mkAv (av_path s') (write p (firstn n avatar) (av_files s')), Err EOther)
            end
          else (s', Err EOther)
      | (s', Err e) => (s', Err e)
      | (s', Panic) => (s', Panic)
      end
  end.

Section A.
Variable G : gcm.

(* decryptAvatar (120-129) and decrypt (130-147): slicing panics when there are fewer bytes. spare is what lies behind the key in its
   array, up to its capacity *)
Definition decryptAvatar (avatar key spare : bytes) : res bytes :=
  if (length avatar <? 12)%nat then Panic
  else if (length (key ++ spare) <? 32)%nat then Panic
  else
    match gopen G (firstn 32 (key ++ spare)) (firstn 12 avatar) [] (skipn 12 avatar) with
    | Some p => Ok p
    | None => Err EMac
    end.

(* Profile (profile.go 144-158): what is used here *)
Record remote := mkRemote { rp_uuid : bytes; rp_name : bytes; rp_about : bytes; rp_emoji : bytes; rp_avatar : bytes; rp_identity : bytes }.

(* GetProfileUUID, lines 407-440: get gives the body of the answer of the CDN, whatever its status, or None for an error of the
   transport. The result is the image the profile is left with: None if profile.Avatar is empty in the end. *)
Definition fetch_avatar (o : io) (key spare : bytes) (p : remote) (get : bytes -> option bytes) (s : avstate) : avstate * res (option bytes) :=
  match rp_avatar p with
  | [] => (s, Ok None)
  | name =>
      match get (47 :: name) with
      | None => (s, Ok None)
      | Some body =>
          match key with
          | [] => (s, Ok None)
          | _ =>
              match body with
              | [] => (s, Ok (Some []))
              | _ =>
                  match decryptAvatar body key spare with
                  | Panic => (s, Panic)
                  | Err _ => (fst (saveLocalAvatar o (rp_uuid p) [] s), Ok None)
                  | Ok img => (fst (saveLocalAvatar o (rp_uuid p) img s), Ok (Some img))
                  end
              end
          end
      end
  end.

(* GetProfileUUID (383-467). With a profile key the profile comes from GetProfileAndCredential; without one it is decoded from the
   body of the answer, where null makes the pointer nil (400-401). *)
Definition RefreshProfile (o : io) (uuid spare : bytes) (cred : person -> res remote) (plain : res (option remote)) (get : bytes -> option bytes)
  (w : option (table -> table)) (s : cstate * avstate) : (cstate * avstate) * res unit :=
  let (cs, av) := s in
  let c := GetContact uuid cs in
  let fetched := match p_pkey c with [] => plain | _ => match cred c with Ok p => Ok (Some p) | Err e => Err e | Panic => Panic end end in
  match fetched with
  | Err e => (s, Err e)
  | Panic | Ok None => (s, Panic)
  | Ok (Some p) =>
      match fetch_avatar o (p_pkey c) spare p get av with
      | (av', Ok img) =>
          let (cs', r) := GetProfileUUID uuid (fun _ => Ok (mkAnswer (rp_uuid p) (rp_name p) (rp_about p) (rp_emoji p) img)) w cs in
          ((cs', av'), r)
      | (av', Err e) => ((cs, av'), Err e)
      | (av', Panic) => ((cs, av'), Panic)
      end
  end.

(* the contact GetProfileE164 makes (373-376) *)
Definition by_number (p : remote) (img : bytes) (c : person) : person :=
  mkPerson (rp_uuid p) (p_tel c) (p_pkey c) (rp_name p) (p_username c) (p_registered c) true img (p_about c) (p_emoji c) (p_rest c).
(* GetProfileE164 (345-380): None for answer is an error of the transport, Some None a body that is null. After an error it goes on
   with what there is; the reader of an image that was not got is nil. *)
Definition GetProfileE164 (o : io) (answer : option (option remote)) (get : bytes -> option bytes) (spare : bytes) (w : option (table -> table))
  (s : cstate * avstate) : (cstate * avstate) * res person :=
  let (cs, av) := s in
  match answer with
  | None | Some None => (s, Panic)
  | Some (Some p) =>
      match (match rp_avatar p with [] => None | name => get name end) with
      | None => (s, Panic)
      | Some body =>
          match decryptAvatar body (rp_identity p) spare with
          | Panic => (s, Panic)
          | d =>
              let img := match d with Ok i => i | _ => [] end in
              let av' := fst (saveLocalAvatar o (rp_uuid p) img av) in
              let c := by_number p img (GetContact (rp_uuid p) cs) in
              let (cs', _) := WriteContactsToPath w (mkCs (put (rp_uuid p) c (cs_table cs)) (cs_file cs)) in
              ((cs', av'), Ok c)
          end
      end
  end.
End A.
