(* The command line program: /repo/cmd/textsecure/main.go. Sending, the redis server and the disk are arguments; what the program does
   is the list of its effects. *)
From Coq Require Import ZArith List Lia Bool.
From Verif Require Import Bytes Res Encodings.
Import ListNotations.
Open Scope Z_scope.

(* ---- received messages ---- *)

(* textsecure.Message as far as it is used: Source, the hexadecimal id of the group if Group is not nil, likewise GroupV2 (which is
   never looked at), the text and the attachments *)
Record cmsg := mkCmsg { cm_source : bytes; cm_group : option bytes; cm_group2 : option bytes; cm_text : bytes; cm_atts : list bytes }.
(* the flags (36-60) that matter here *)
Record flags := mkFlags { fl_echo : bool; fl_hook : bytes; fl_raw : bool; fl_redis : bool }.

Inductive effect :=
| Sent (isGroup : bool) (to text : bytes)
| Shown (m : cmsg)
| Hooked (m : cmsg)
| SavedAttachment (source data : bytes)
| Conversation (isGroup : bool) (to : bytes)
| Published (to text : bytes).

(* messageHandler (218-265); cur is the variable to (38) *)
Definition messageHandler (f : flags) (m : cmsg) (cur : bytes) : bytes * list effect :=
  if fl_echo f then
    match cm_group m with
    | Some g => (cur, [Sent true g (cm_text m)])
    | None => (cur, [Sent false (cm_source m) (cm_text m)])
    end
  else
    let show :=
      match cm_text m with
      | [] => []
      | _ => [Shown m] ++ (match fl_hook f with [] => [] | _ => [Hooked m] end) ++ (if fl_raw f then [] else [Shown m])
      end in
    let save := map (SavedAttachment (cm_source m)) (cm_atts m) in
    let to' := match cur with [] => match cm_group m with Some g => g | None => cm_source m end | _ => cur end in
    let talk :=
      match cur with
      | [] => if fl_redis f then [] else [Conversation (match cm_group m with Some _ => true | None => false end) to']
      | _ => []
      end in
    let publish := if fl_redis f then [Published to' (cm_text m)] else [] in
    (to', show ++ save ++ talk ++ publish).
Fixpoint messages (f : flags) (ms : list cmsg) (cur : bytes) : bytes * list (list effect) :=
  match ms with
  | [] => (cur, [])
  | m :: r => let (c, e) := messageHandler f m cur in let (c', es) := messages f r c in (c', e :: es)
  end.

(* ---- the command line ---- *)

(* strings.Split(s, ":") *)
Fixpoint split_colon (s : bytes) : list bytes :=
  match s with
  | [] => [[]]
  | c :: t => if c =? 58 then [] :: split_colon t else match split_colon t with p :: ps => (c :: p) :: ps | [] => [[c]] end
  end.
(* lines 598-602: s[1:] *)
Definition newgroup_args (arg : bytes) : bytes * list bytes :=
  match split_colon arg with name :: ms => (name, ms) | [] => ([], []) end.
(* lines 603-607: s[1] and s[2:] panic if there are not so many *)
Definition updategroup_args (arg : bytes) : res (bytes * bytes * list bytes) :=
  match split_colon arg with hexid :: name :: ms => Ok (hexid, name, ms) | _ => Panic end.

(* lines 612-618: fold_eq is strings.EqualFold, a contact is its name and its UUID *)
Fixpoint resolve (fold_eq : bytes -> bytes -> bool) (contacts : list (bytes * bytes)) (dest : bytes) : bytes :=
  match contacts with
  | [] => dest
  | (name, uuid) :: r => if fold_eq name dest then uuid else resolve fold_eq r dest
  end.
(* lines 620-663 without attachment, stress and endsession: the message that is sent, if any, and the conversation that is begun *)
Definition command (fold_eq : bytes -> bytes -> bool) (contacts : list (bytes * bytes)) (isGroup : bool) (dest text : bytes) : list effect :=
  match resolve fold_eq contacts dest with
  | [] => []
  | d => match text with [] => [Conversation isGroup d] | _ => [Sent isGroup d text] end
  end.

(* ---- the gateway ---- *)

(* the files in /tmp *)
Definition tmp := list (bytes * bytes).
Fixpoint tread (n : bytes) (t : tmp) : option bytes :=
  match t with [] => None | (k, b) :: r => if beq n k then Some b else tread n r end.
Fixpoint twrite (n b : bytes) (t : tmp) : tmp :=
  match t with [] => [(n, b)] | (k, c) :: r => if beq n k then (n, b) :: r else (k, c) :: twrite n b r end.
Fixpoint tremove (n : bytes) (t : tmp) : tmp :=
  match t with [] => [] | (k, c) :: r => if beq n k then tremove n r else (k, c) :: tremove n r end.

(* ^([a-f\d]{64})$ *)
Definition hex_digit (c : Z) : bool := ((97 <=? c) && (c <=? 102)) || ((48 <=? c) && (c <=? 57)).
Definition is_group (to : bytes) : bool := (length to =? 64)%nat && forallb hex_digit to.

(* what is handed to the library: to a group or not, the recipient, the text and the attachment if there is one *)
Record handed := mkHanded { h_group : bool; h_to : bytes; h_text : bytes; h_file : option bytes }.

(* GatewaySend (381-409): the answer is true and what was handed on, or false. Removing the file may fail, which is not looked at;
   out is what sending gives *)
Definition GatewaySend (out : handed -> res unit) (removable : bool) (to text : bytes) (filename : option bytes) (t : tmp) : tmp * option handed * bool :=
  match filename with
  | Some n =>
      match tread n t with
      | None => (t, None, false)
      | Some b =>
          let h := mkHanded (is_group to) to text (Some b) in
          (if removable then tremove n t else t, Some h, match out h with Ok _ => true | _ => false end)
      end
  | None => let h := mkHanded (is_group to) to text None in (t, Some h, match out h with Ok _ => true | _ => false end)
  end.

(* a request: POST or not, the two fields and the file, and whether the file in /tmp can be opened *)
Record upload := mkUpload { u_post : bool; u_text : bytes; u_to : bytes; u_file : option (bytes * bytes) }.
(* os.OpenFile without O_TRUNC, and io.Copy: the bytes are overwritten from the beginning *)
Definition overwrite (new : bytes) (old : option bytes) : bytes := new ++ match old with Some b => skipn (length new) b | None => [] end.
(* GatewayHandler (453-503) *)
Definition GatewayHandler (out : handed -> res unit) (can_open : bytes -> bool) (removable : bool) (u : upload) (t : tmp) : tmp * option handed * bool :=
  if negb (u_post u) then (t, None, false)
  else
    let (t1, filename) :=
      match u_file u with
      | Some (n, b) => if can_open n then (twrite n (overwrite b (tread n t)) t, Some n) else (t, None)
      | None => (t, None)
      end in
    match u_text u, u_to u with
    | [], _ | _, [] => (t1, None, false)
    | _, _ => GatewaySend out removable (u_to u) (u_text u) filename t1
    end.
Fixpoint uploads (out : handed -> res unit) (can_open : bytes -> bool) (removable : bool) (l : list upload) (t : tmp) : tmp * list (option handed * bool) :=
  match l with
  | [] => (t, [])
  | u :: r =>
      let '(t1, h, ok) := GatewayHandler out can_open removable u t in
      let (t2, rs) := uploads out can_open removable r t1 in (t2, (h, ok) :: rs)
  end.

(* JSONHandler (412-450): None is a body that is no JSON object; the value under the name of the message *)
Inductive jvalue := JAbsent | JNull | JText (s : bytes) | JOther.
Definition JSONHandler (out : handed -> res unit) (body : option jvalue) (to : bytes) : res (option handed * bool) :=
  match body with
  | None | Some JAbsent | Some JNull => Ok (None, false)
  | Some (JText s) => let '(_, h, ok) := GatewaySend out true to s None [] in Ok (h, ok)
  | Some JOther => Panic
  end.

(* RekeyHandler (353-378): the path that os.Remove is called with, if it is; ^\d*$ *)
Definition digit10 (c : Z) : bool := (48 <=? c) && (c <=? 57).
Definition str_remote : bytes := [114; 101; 109; 111; 116; 101]. (* "remote" *)
(* ".storage/identity/" *)
Definition str_identity_dir : bytes := [46; 115; 116; 111; 114; 97; 103; 101; 47; 105; 100; 101; 110; 116; 105; 116; 121; 47].
Definition RekeyHandler (delete : bool) (identity : bytes) : option bytes :=
  if delete && forallb digit10 identity then Some (str_identity_dir ++ str_remote ++ 95 :: identity) else None.
(* where SaveIdentity (/repo/store.go 212-215) puts the key of a peer, for a storage directory without parts that Clean removes *)
Definition identity_file (storage id : bytes) : bytes :=
  storage ++ [47; 105; 100; 101; 110; 116; 105; 116; 121; 47] ++ str_remote ++ 95 :: id.

(* GroupsHandler (328-350): the files of .storage/groups in the order of their names, each what YAML makes of it (an error ends
   the walk, and is not looked at); None if there is no such directory. The answer is a map. *)
Fixpoint listed (fs : list (res (bytes * bytes))) : list (bytes * bytes) :=
  match fs with
  | Ok g :: r => g :: listed r
  | _ => []
  end.
Definition GroupsHandler (dir : option (list (res (bytes * bytes)))) : res (list (bytes * bytes)) :=
  match dir with None => Panic | Some fs => Ok (listed fs) end.
