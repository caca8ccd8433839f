(* What a client keeps about groups of the second version and how it follows the server:
   /repo/groupsv2/groupsv2.go, decrypt.go, createGroupChange.go, helpers.go, groupActions.go 40-135, and
   sendGroupV2Helper and JoinGroup of /repo/groups.go. The variable groupsV2 holds pointers; every pointer the
   code works on is the one in the map, so changing the group behind it is changing the entry. A file holds the
   group written to it (the YAML library is trusted to give it back; a file it cannot read counts as absent, as in
   HandleGroupsV2). The cipher of a group is made from its master key and not kept here. Not modelled: the
   credentials behind an authorisation (C59), logging, the fields of Group and of the change that no code reads. *)
From Coq Require Import ZArith List Lia Bool.
From Verif Require Import Bytes Res Crypto Encodings Content.
Import ListNotations.
Open Scope Z_scope.

(* ---- what the server sends: Member, MemberPendingProfileKey and Group of /repo/protobuf/Groups.proto ---- *)
Record emember := mkEm { e_uid : bytes; e_role : Z; e_pkey : bytes; e_pres : bytes; e_joined : Z }.
Record epending := mkEp { ep_member : option emember; ep_by : bytes; ep_time : Z }.
Record egroup := mkEg { eg_title : bytes; eg_avatar : bytes; eg_acc : option (Z * Z * Z); eg_rev : Z;
                        eg_members : list emember; eg_pending : list epending }.
(* GroupChange_Actions, the actions that are looked at *)
Record eactions := mkEa { ea_rev : Z; ea_add : list emember; ea_del : list bytes; ea_roles : list (bytes * Z);
                          ea_invite : list epending }.

(* ---- decrypted: DecryptedMember, DecryptedGroup, DecryptedGroupChange of /repo/protobuf/DecryptGroups.proto ---- *)
Record dmember := mkDm { dm_uuid : bytes; dm_role : Z; dm_pkey : bytes; dm_joined : Z }.
Record dgroup := mkDg { dg_title : bytes; dg_avatar : bytes; dg_acc : option (Z * Z * Z); dg_rev : Z; dg_members : list dmember }.
Record dpending := mkDp { dp_uuid : bytes; dp_role : Z; dp_by : bytes; dp_cipher : bytes; dp_time : Z }.
Record dchange := mkDc { dc_rev : Z; dc_new : list dmember; dc_del : list bytes; dc_roles : list (bytes * Z);
                         dc_invited : list dpending }.

(* The libraries. zk_params: the master key is acceptable. zk_uuid, zk_pkey, zk_blob: decryption with the cipher of
   a master key, which may fail. zk_pres: the uuid and profile key ciphertexts in a presentation. zk_verify: the
   signature of the server over the bytes of a change. pb_change, pb_actions: what proto.Unmarshal leaves in the
   message, error or not. uc_show: strings.Map keeping the graphic characters. *)
Record zk := mkZk {
  zk_params : bytes -> bool;
  zk_uuid : bytes -> bytes -> option bytes;
  zk_pkey : bytes -> bytes -> bytes -> option bytes;
  zk_blob : bytes -> bytes -> option bytes;
  zk_pres : bytes -> option (bytes * bytes);
  zk_verify : bytes -> bytes -> bool;
  pb_change : bytes -> bytes * bytes;
  pb_actions : bytes -> eactions;
  uc_show : bytes -> bytes }.

(* GroupV2 (groupsv2.go 44-54) *)
Record gr2 := mkGr2 { g2_key : bytes; g2_ctx : egroup; g2_dec : option dgroup; g2_act : option dchange; g2_join : Z; g2_rev : Z }.
Definition no_group : egroup := mkEg [] [] None 0 [] [].
Definition g2_new (key : bytes) (rev : Z) : gr2 := mkGr2 key no_group None None 0 rev.
(* 29-34 *)
Definition J_MEMBER : Z := 0.
Definition J_INVITE : Z := 1.

Definition table2 := list (bytes * gr2).
Fixpoint find2 (k : bytes) (t : table2) : option gr2 :=
  match t with [] => None | (k', g) :: r => if beq k k' then Some g else find2 k r end.
Fixpoint put2 (k : bytes) (g : gr2) (t : table2) : table2 :=
  match t with [] => [(k, g)] | (k', g') :: r => if beq k k' then (k, g) :: r else (k', g') :: put2 k g r end.
(* the variable groupsV2 (40) and the files of groupV2Dir *)
Record st2 := mkSt2 { s2_map : table2; s2_files : table2 }.

(* loadGroupV2 (357-371) *)
Definition loadGroupV2 (k : bytes) (s : st2) : st2 * option gr2 :=
  match find2 k (s2_files s) with
  | Some g => (mkSt2 (put2 k g (s2_map s)) (s2_files s), Some g)
  | None => (s, None)
  end.
(* saveGroupV2 (347-354) of a group in the map; w says whether the file could be written *)
Definition saveGroupV2 (w : bool) (k : bytes) (s : st2) : st2 :=
  match find2 k (s2_map s) with
  | Some g => if w then mkSt2 (s2_map s) (put2 k g (s2_files s)) else s
  | None => s
  end.
(* FindGroup (103-113) *)
Definition FindGroup (k : bytes) (s : st2) : st2 * option gr2 :=
  match s2_map s with
  | [] => loadGroupV2 k s
  | _ :: _ => (s, find2 k (s2_map s))
  end.

(* ---- decrypt.go ---- *)
(* decryptMember (64-111): without a presentation an error of DecryptProfileKey is forgotten *)
Definition decryptMember (z : zk) (key : bytes) (m : emember) : option dmember :=
  if negb (zk_params z key) then None else
  match e_pres m with
  | [] => match zk_uuid z key (e_uid m) with
          | None => None
          | Some u => Some (mkDm u (e_role m) (match zk_pkey z key (e_pkey m) u with Some p => p | None => [] end) (e_joined m))
          end
  | _ :: _ => match zk_pres z (e_pres m) with
              | None => None
              | Some (uc, pc) =>
                match zk_uuid z key uc with
                | None => None
                | Some u => match zk_pkey z key pc u with
                            | None => None
                            | Some p => Some (mkDm u (e_role m) p (e_joined m))
                            end
                end
              end
  end.
(* the loops that keep what could be decrypted *)
Fixpoint somes {A B} (f : A -> option B) (l : list A) : list B :=
  match l with [] => [] | x :: r => match f x with Some y => y :: somes f r | None => somes f r end end.
(* decryptGroup (23-62) *)
Definition decryptGroup (z : zk) (key : bytes) (e : egroup) : option dgroup :=
  if negb (zk_params z key) then None else
  match zk_blob z key (eg_title e) with
  | None => None
  | Some t => Some (mkDg (uc_show z t) (eg_avatar e) (eg_acc e) (eg_rev e) (somes (decryptMember z key) (eg_members e)))
  end.

(* helpers.go 11-39; me is the configured UUID. The error is ignored by every caller *)
Fixpoint listed (z : zk) (key me : bytes) (l : list emember) : option bool :=
  match l with
  | [] => Some false
  | m :: r => if negb (zk_params z key) then None else
              match zk_uuid z key (e_uid m) with
              | None => None
              | Some u => match listed z key me r with Some b => Some (beq (HexToUUID (hex u)) me || b) | None => None end
              end
  end.
Definition set_join (j : Z) (g : gr2) : gr2 := mkGr2 (g2_key g) (g2_ctx g) (g2_dec g) (g2_act g) j (g2_rev g).
Definition CheckJoinStatus (z : zk) (me : bytes) (g : gr2) : gr2 :=
  match g2_dec g with
  | Some d => set_join (if existsb (fun m => beq (HexToUUID (hex (dm_uuid m))) me) (dg_members d) then J_MEMBER else J_INVITE) g
  | None => match listed z (g2_key g) me (eg_members (g2_ctx g)) with
            | Some b => set_join (if b then J_MEMBER else J_INVITE) g
            | None => g
            end
  end.
(* decryptGroupFromServer (12-22): the group as it is afterwards, and whether there was an error *)
Definition decryptGroupFromServer (z : zk) (me : bytes) (e : egroup) (g : gr2) : gr2 * bool :=
  let d := decryptGroup z (g2_key g) e in
  (CheckJoinStatus z me (mkGr2 (g2_key g) e d (g2_act g) (g2_join g) (g2_rev g)), match d with Some _ => true | None => false end).

(* The answer to a query: refused (no authorisation, network, status), or a body, given as what Unmarshal leaves in
   the message and whether it succeeded. queryGroupChangeFromServer (163-197) does not look at the latter *)
Inductive answer2 := Refused (e : err) | Answered (g : egroup) (complete : bool).
Definition query (z : zk) (key : bytes) (a : answer2) : res egroup :=
  if negb (zk_params z key) then Err EOther else match a with Refused e => Err e | Answered g _ => Ok g end.
(* UpdateGroupFromServer (198-226) of the group with this master key *)
Definition UpdateGroupFromServer (z : zk) (me : bytes) (a : answer2) (w : bool) (key : bytes) (s : st2) : st2 * res unit :=
  let k := hex key in
  let g := match find2 k (s2_map s) with Some g => g | None => g2_new key 0 end in
  match query z (g2_key g) a with
  | Ok e =>
    let (g', ok) := decryptGroupFromServer z me e g in
    if ok then (saveGroupV2 w k (mkSt2 (put2 k g' (s2_map s)) (s2_files s)), Ok tt)
    else (match find2 k (s2_map s) with Some _ => mkSt2 (put2 k g' (s2_map s)) (s2_files s) | None => s end, Err EOther)
  | Err e => (s, Err e)
  | Panic => (s, Panic)
  end.
(* GetGroupV2MembersForGroup (227-238) *)
Definition GetMembers (z : zk) (me : bytes) (a : answer2) (w : bool) (k : bytes) (s : st2) : st2 * res (list dmember) :=
  let (s1, og) := FindGroup k s in
  match og with
  | None => (s1, Err ENotFound)
  | Some g =>
    let (s2, _) := UpdateGroupFromServer z me a w (g2_key g) s1 in
    (s2, match find2 k (s2_map s2) with
         | Some g' => match g2_dec g' with Some d => Ok (dg_members d) | None => Panic end
         | None => Panic
         end)
  end.

(* decryptPendingMembers (decrypt.go 124-150): errors are logged, the bytes are then empty *)
Definition orempty (o : option bytes) : bytes := match o with Some b => b | None => [] end.
Definition decryptPending (z : zk) (key : bytes) (p : epending) : dpending :=
  let uc := match ep_member p with Some m => e_uid m | None => [] end in
  mkDp (orempty (zk_uuid z key uc)) (match ep_member p with Some m => e_role m | None => 0 end)
       (orempty (zk_uuid z key (ep_by p))) uc (ep_time p).
(* decryptGroupChangeActions (groupActions.go 40-135): the other actions are only logged *)
Definition decryptActions (z : zk) (key : bytes) (a : eactions) : option dchange :=
  if negb (zk_params z key) then None else
  Some (mkDc (ea_rev a) (somes (decryptMember z key) (ea_add a)) (somes (zk_uuid z key) (ea_del a))
             (somes (fun x => match zk_uuid z key (fst x) with Some u => Some (u, snd x) | None => None end) (ea_roles a))
             (map (decryptPending z key) (ea_invite a))).

Definition set_act (o : option dchange) (g : gr2) : gr2 := mkGr2 (g2_key g) (g2_ctx g) (g2_dec g) o (g2_join g) (g2_rev g).
Definition is_nil {A} (l : list A) : bool := match l with [] => true | _ => false end.
(* HandleGroupsV2 (239-318) of a message with a group context; src is the sender, a1 and a2 the answers to the
   queries made at the start and at the end, w0 w1 w2 whether the files could be written *)
Definition HandleGroupsV2 (z : zk) (me src : bytes) (c : gctx2) (a1 a2 : answer2) (w0 w1 w2 : bool) (s : st2) : st2 * res gr2 :=
  let key := orempty (gc_master c) in
  let k := hex key in
  let rev := match gc_rev c with Some r => r | None => 0 end in
  let (s1, og) := loadGroupV2 k s in
  let s2 := match og with
            | None => let n := saveGroupV2 w0 k (mkSt2 (put2 k (g2_new key rev) (s2_map s1)) (s2_files s1)) in
                      fst (UpdateGroupFromServer z me a1 w1 key n)
            | Some g => if is_nil (eg_title (g2_ctx g)) then fst (UpdateGroupFromServer z me a1 w1 (g2_key g) s1) else s1
            end in
  match find2 k (s2_map s2) with
  | None => (s2, Panic)   (* not reached: the group is in the map *)
  | Some g =>
    let ch := orempty (gc_change c) in
    if negb (is_nil ch) then
      let (acts, sig) := pb_change z ch in
      if negb (is_nil acts) && negb (zk_verify z acts sig) then (s2, Err EOther)
      else
        let d := decryptActions z (g2_key g) (pb_actions z acts) in
        let s3 := fst (UpdateGroupFromServer z me a2 w2 (g2_key g) s2) in
        match find2 k (s2_map s3) with
        | None => (s3, Panic)   (* not reached *)
        | Some g' => let g'' := set_act d g' in (mkSt2 (put2 k g'' (s2_map s3)) (s2_files s3), Ok g'')
        end
    else
      match g2_dec g with
      | None => (s2, Panic)
      | Some d =>
        if dg_rev d =? rev then (s2, Ok g)
        else let s3 := fst (UpdateGroupFromServer z me a2 w2 (g2_key g) s2) in
             match find2 k (s2_map s3) with Some g' => (s3, Ok g') | None => (s3, Panic) end
      end
  end.

(* findMemberByUuid (createGroupChange.go 120-138) *)
Fixpoint invited_as (z : zk) (key me : bytes) (l : list epending) : res emember :=
  match l with
  | [] => Err ENotFound
  | p :: r => match ep_member p with
              | None => Panic
              | Some m => if negb (zk_params z key) then Err EOther else
                          match zk_uuid z key (e_uid m) with
                          | None => Err EOther
                          | Some u => if beq (HexToUUID (hex u)) me then Ok m else invited_as z key me r
                          end
              end
  end.
(* JoinGroup (groups.go 501-512, groupsv2.go 328-340) and AddPendingMembers (createGroupChange.go 55-109). pres is the
   outcome of making the presentation and the authorisation; patch the outcome of PatchGroupV2. What is sent is the
   presentation with the next revision *)
Definition JoinGroup (z : zk) (me : bytes) (a1 a2 : answer2) (w1 w2 : bool) (pres : res bytes) (patch : res unit) (k : bytes) (s : st2)
  : st2 * res gr2 * list (bytes * Z) :=
  let (s0, og) := FindGroup k s in
  match og with
  | None => (s0, Err ENotFound, [])
  | Some g0 =>
    let (s1, r1) := UpdateGroupFromServer z me a1 w1 (g2_key g0) s0 in
    match r1 with
    | Err e => (s1, Err e, [])
    | Panic => (s1, Panic, [])
    | Ok _ =>
      match find2 k (s2_map s1) with
      | None => (s1, Panic, [])
      | Some g =>
        match invited_as z (g2_key g) me (eg_pending (g2_ctx g)) with
        | Err e => (s1, Err e, [])
        | Panic => (s1, Panic, [])
        | Ok _ =>
          match pres with
          | Err e => (s1, Err e, [])
          | Panic => (s1, Panic, [])
          | Ok p =>
            match g2_dec g with
            | None => (s1, Panic, [])
            | Some d =>
              let sent := [(p, (dg_rev d + 1) mod 2 ^ 32)] in
              let s2 := mkSt2 (put2 k (set_join J_MEMBER g) (s2_map s1)) (s2_files s1) in
              let s3 := fst (UpdateGroupFromServer z me a2 w2 (g2_key g) s2) in
              match find2 k (s2_map s3) with Some g' => (s3, Ok g', sent) | None => (s3, Panic, sent) end
            end
          end
        end
      end
    end
  end.

(* sendGroupV2Helper (groups.go 205-251): out n is the outcome of the n-th sendMessage; what was tried, by destination *)
Fixpoint send2 (out : nat -> res Z) (n : nat) (l : list dmember) (ts : Z) : res Z * list bytes :=
  match l with
  | [] => (Ok ts, [])
  | m :: r => match idToHexUUID (dm_uuid m) with
              | Ok dest => match out n with
                           | Ok t => let (x, tried) := send2 out (S n) r t in (x, dest :: tried)
                           | Err e => (Err e, [dest])
                           | Panic => (Panic, [dest])
                           end
              | Err e => (Err e, [])
              | Panic => (Panic, [])
              end
  end.
Definition sendGroupV2Helper (z : zk) (me : bytes) (a : answer2) (w : bool) (out : nat -> res Z) (k : bytes) (s : st2)
  : st2 * res Z * list bytes :=
  let (s0, og) := FindGroup k s in
  match og with
  | None => (s0, Err ENotFound, [])
  | Some g0 =>
    let g := CheckJoinStatus z me g0 in
    let s1 := mkSt2 (put2 k g (s2_map s0)) (s2_files s0) in
    if negb (g2_join g =? J_MEMBER) then (s1, Err EOther, [])
    else
      let '(s2, r) := match g2_dec g with Some _ => (s1, Ok tt) | None => UpdateGroupFromServer z me a w (g2_key g) s1 end in
      match r with
      | Err e => (s2, Err e, [])
      | Panic => (s2, Panic, [])
      | Ok _ =>
        match find2 k (s2_map s2) with
        | Some g' => match g2_dec g' with
                     | None => (s2, Panic, [])
                     | Some d => match dg_members d with
                                 | [] => (s2, Err EOther, [])
                                 | _ :: _ => let (x, tried) := send2 out 0 (dg_members d) 0 in (s2, x, tried)
                                 end
                     end
        | None => (s2, Panic, [])
        end
      end
  end.

(* a new process *)
Definition restart2 (s : st2) : st2 := mkSt2 [] (s2_files s).
