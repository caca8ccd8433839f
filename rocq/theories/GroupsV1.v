(* Old style groups: /repo/groups.go. The map is an association list; a file holds the group written to it
   (the YAML library is trusted to give back what it was given). Sending is given by the outcomes of
   sendMessage, one after the other; writing a file succeeds or fails as the argument says. Not modelled: the
   avatar of updateGroup, the slices sharing memory after append. *)
From Coq Require Import ZArith List Lia Bool.
From Verif Require Import Bytes Res Crypto Encodings Contacts.
Import ListNotations.
Open Scope Z_scope.

(* Group (28-35) *)
Record group := mkGroup { g_id : bytes; g_hexid : bytes; g_name : bytes; g_members : list bytes; g_avatar : bytes }.
Definition gtable := list (bytes * group).
Fixpoint gfind (k : bytes) (t : gtable) : option group :=
  match t with [] => None | (k', g) :: r => if beq k k' then Some g else gfind k r end.
Fixpoint gput (k : bytes) (g : group) (t : gtable) : gtable :=
  match t with [] => [(k, g)] | (k', g') :: r => if beq k k' then (k, g) :: r else (k', g') :: gput k g r end.
Fixpoint gdel (k : bytes) (t : gtable) : gtable :=
  match t with [] => [] | (k', g') :: r => if beq k k' then gdel k r else (k', g') :: gdel k r end.

(* the variable groups (39) and the files in groupDir *)
Record gstate := mkGs { gs_map : gtable; gs_files : gtable }.

(* saveGroup (57-64) for a group that is in the map *)
Definition saveGroup (w : bool) (k : bytes) (g : group) (s : gstate) : gstate * res unit :=
  if w then (mkGs (gs_map s) (gput k g (gs_files s)), Ok tt) else (s, Err EOther).

(* strings.Contains *)
Fixpoint prefix (a b : bytes) : bool :=
  match a, b with [], _ => true | x :: a, y :: b => (x =? y) && prefix a b | _ :: _, [] => false end.
Fixpoint contains (a b : bytes) : bool := prefix a b || match b with [] => false | _ :: t => contains a t end.
Definition avatar_text : bytes := [97; 118; 97; 116; 97; 114].
(* idToPath (49-51); dir is groupDir *)
Definition idToPath (dir k : bytes) : bytes := dir ++ 47 :: k.
(* setupGroups (94-111): the map is filled from the files; groups it already has stay *)
Definition setupGroups (dir : bytes) (s : gstate) : gstate :=
  mkGs (fold_left (fun t kg => if contains avatar_text (idToPath dir (fst kg)) then t else gput (fst kg) (snd kg) t) (gs_files s) (gs_map s))
       (gs_files s).
(* a new process *)
Definition grestart (dir : bytes) (s : gstate) : gstate := setupGroups dir (mkGs [] (gs_files s)).

(* removeMember (113-121) *)
Fixpoint removeMember (tel : bytes) (members : list bytes) : list bytes :=
  match members with [] => [] | m :: r => if beq m tel then r else m :: removeMember tel r end.

Definition with_members (g : group) (ms : list bytes) : group := mkGroup (g_id g) (g_hexid g) (g_name g) ms (g_avatar g).
(* quitGroup (160-169); no code calls it *)
Definition quitGroup (w : bool) (src k : bytes) (s : gstate) : gstate * res unit :=
  match gfind k (gs_map s) with
  | None => (s, Err ENotFound)
  | Some g => let g' := with_members g (removeMember src (g_members g)) in
              saveGroup w k g' (mkGs (gput k g' (gs_map s)) (gs_files s))
  end.

(* outgoing messages: destination, group id and what it says *)
Inductive saying := SayText (m : bytes) | SayUpdate (name : bytes) (ms : list bytes) | SayQuit | SayRequest.
Record gmsg := mkGm { gm_dest : bytes; gm_gid : bytes; gm_say : saying }.
(* a loop that sends to one after the other and returns at the first failure; what was tried *)
Fixpoint sendall (out : nat -> res Z) (k : nat) (l : list gmsg) (ts : Z) : res Z * list gmsg :=
  match l with
  | [] => (Ok ts, [])
  | m :: r => match out k with
              | Ok t => let (x, tried) := sendall out (S k) r t in (x, m :: tried)
              | Err e => (Err e, [m])
              | Panic => (Panic, [m])
              end
  end.
Definition others (tel : bytes) (ms : list bytes) : list bytes := filter (fun m => negb (beq m tel)) ms.
Definition unit_of {A} (r : res A) : res unit := match r with Ok _ => Ok tt | Err e => Err e | Panic => Panic end.

(* GetContactForTel (197-204): ranging over the map in any order, here the order of the list *)
Definition GetContactForTel (cs : list person) (tel : bytes) : option person := find (fun c => beq (p_tel c) tel) cs.
(* the destination chosen in sendGroupHelper (280-283) *)
Definition address (cs : list person) (m : bytes) : bytes :=
  match GetContactForTel cs m with
  | Some c => let u := p_uuid c in
              if negb (beq u []) && negb (beq u [48]) && (negb (hd 0 u =? 0) || negb (last u 0 =? 0)) then u else m
  | None => m
  end.

(* RequestGroupInfo (404-435) for a group without members *)
Definition request_empty (tel : bytes) (g : group) : list gmsg := [mkGm tel (g_id g) SayRequest].

(* sendGroupHelper (253-304); v2 is the outcome of sendGroupV2Helper *)
Definition sendGroupHelper (dir tel : bytes) (cs : list person) (out : nat -> res Z) (v2 : res Z) (k msg : bytes) (s : gstate)
  : gstate * res Z * list gmsg :=
  match gfind k (gs_map s) with
  | None => (s, match v2 with Ok t => Ok t | Err _ => Err ENotFound | Panic => Panic end, [])
  | Some g =>
      match g_members g with
      | [] => (setupGroups dir (mkGs (gs_map s) (gdel k (gs_files s))), Err EOther, snd (sendall out 0 (request_empty tel g) 0))
      | ms => let (r, tried) := sendall out 0 (map (fun m => mkGm (address cs m) (g_id g) (SayText msg)) (others tel ms)) 0 in
              (s, r, tried)
      end
  end.

(* sendUpdate (366-384) *)
Definition sendUpdate (tel : bytes) (out : nat -> res Z) (g : group) : res unit * list gmsg :=
  let (r, tried) := sendall out 0 (map (fun m => mkGm m (g_id g) (SayUpdate (g_name g) (g_members g))) (others tel (g_members g))) 0 in
  (unit_of r, tried).

(* newGroup (386-401) and NewGroup (439-445); id are the random bytes of newGroupID *)
Definition NewGroup (tel : bytes) (w : bool) (out : nat -> res Z) (id name : bytes) (members : list bytes) (s : gstate)
  : gstate * res group * list gmsg :=
  let k := hex id in
  let g := mkGroup id k name (members ++ [tel]) [] in
  let (s1, r) := saveGroup w k g (mkGs (gput k g (gs_map s)) (gs_files s)) in
  match r with
  | Ok _ => let (x, tried) := sendUpdate tel out g in
            (s1, match x with Ok _ => Ok g | Err e => Err e | Panic => Panic end, tried)
  | Err e => (s1, Err e, [])
  | Panic => (s1, Panic, [])
  end.

(* changeGroup (353-364): the error of saveGroup is not looked at; UpdateGroup (449-455) *)
Definition UpdateGroup (tel : bytes) (w : bool) (out : nat -> res Z) (k name : bytes) (members : list bytes) (s : gstate)
  : gstate * res group * list gmsg :=
  match gfind k (gs_map s) with
  | None => (s, Err ENotFound, [])
  | Some g0 =>
      let g := mkGroup (g_id g0) (g_hexid g0) name (members ++ [tel]) (g_avatar g0) in
      let (s1, _) := saveGroup w k g (mkGs (gput k g (gs_map s)) (gs_files s)) in
      let (x, tried) := sendUpdate tel out g in
      (s1, match x with Ok _ => Ok g | Err e => Err e | Panic => Panic end, tried)
  end.

(* GetGroupById (467-473) *)
Definition GetGroupById (k : bytes) (s : gstate) : res group := match gfind k (gs_map s) with Some g => Ok g | None => Err ENotFound end.

(* removeGroup (457-464) and LeaveGroup (476-499) *)
Definition LeaveGroup (tel : bytes) (out : nat -> res Z) (k : bytes) (s : gstate) : gstate * res unit * list gmsg :=
  match gfind k (gs_map s) with
  | None => (s, Err ENotFound, [])
  | Some g =>
      let (r, tried) := sendall out 0 (map (fun m => mkGm m (g_id g) SayQuit) (others tel (g_members g))) 0 in
      match r with
      | Ok _ => (mkGs (gs_map s) (gdel (hex (g_id g)) (gs_files s)), Ok tt, tried)
      | Err e => (s, Err e, tried)
      | Panic => (s, Panic, tried)
      end
  end.
