(* Changes to groups of the second version: /repo/groupsv2/groupAuth.go, groupChange.go, groupValidator.go and
   groupModify.go. A function that changes the group through its pointer returns the group beside its outcome,
   also when it fails. groupImmut is passed by value: no function reads it after its first write to the group.
   The keys of the maps are base64 texts of the user ids; they are compared as the ids themselves. Errors are
   EUnauthorized where the code says forbidden, EBadRequest otherwise.
   Not modelled: nil elements in the lists of actions (the decoder makes none), the timestamps of pending members,
   the signed result and its epoch, the log. *)
From Coq Require Import ZArith List Lia Bool.
From Verif Require Import Bytes Res Encodings.
Import ListNotations.
Open Scope Z_scope.

(* Member_Role and AccessControl_AccessRequired (/repo/protobuf/Groups.proto) *)
Definition R_UNKNOWN := 0. Definition R_DEFAULT := 1. Definition R_ADMIN := 2.
Definition A_UNKNOWN := 0. Definition A_ANY := 1. Definition A_MEMBER := 2. Definition A_ADMIN := 3.
Definition A_UNSAT := 4.

(* DecryptedMember, DecryptedPendingMember, DecryptedRequestingMember (/repo/protobuf/DecryptGroups.proto) *)
Record member := mkMember { m_uuid : bytes; m_role : Z; m_pkey : bytes; m_joined : Z }.
Record pending := mkPending { q_uuid : bytes; q_role : Z; q_by : bytes }.
Record asking := mkAsking { r_uuid : bytes; r_pkey : bytes }.
Record access := mkAccess { a_attrs : Z; a_members : Z; a_link : Z }.
(* GroupV2 (groupsv2.go 44-54) with DecryptedGroup inlined; v_cpending and v_casking are the lists of pending and
   requesting members of GroupContext; AccessControl is a pointer. Fields no function here touches are left out. *)
Record v2 := mkV2 {
  v_key : bytes; v_rev : Z; v_annc : bool;
  v_title : bytes; v_avatar : bytes; v_descr : bytes; v_pass : bytes; v_acc : option access;
  v_members : list member; v_pending : list pending; v_asking : list asking;
  v_cpending : list member; v_casking : list asking }.
Definition w_rev x g := mkV2 (v_key g) x (v_annc g) (v_title g) (v_avatar g) (v_descr g) (v_pass g) (v_acc g) (v_members g) (v_pending g) (v_asking g) (v_cpending g) (v_casking g).
Definition w_annc x g := mkV2 (v_key g) (v_rev g) x (v_title g) (v_avatar g) (v_descr g) (v_pass g) (v_acc g) (v_members g) (v_pending g) (v_asking g) (v_cpending g) (v_casking g).
Definition w_title x g := mkV2 (v_key g) (v_rev g) (v_annc g) x (v_avatar g) (v_descr g) (v_pass g) (v_acc g) (v_members g) (v_pending g) (v_asking g) (v_cpending g) (v_casking g).
Definition w_avatar x g := mkV2 (v_key g) (v_rev g) (v_annc g) (v_title g) x (v_descr g) (v_pass g) (v_acc g) (v_members g) (v_pending g) (v_asking g) (v_cpending g) (v_casking g).
Definition w_descr x g := mkV2 (v_key g) (v_rev g) (v_annc g) (v_title g) (v_avatar g) x (v_pass g) (v_acc g) (v_members g) (v_pending g) (v_asking g) (v_cpending g) (v_casking g).
Definition w_pass x g := mkV2 (v_key g) (v_rev g) (v_annc g) (v_title g) (v_avatar g) (v_descr g) x (v_acc g) (v_members g) (v_pending g) (v_asking g) (v_cpending g) (v_casking g).
Definition w_acc x g := mkV2 (v_key g) (v_rev g) (v_annc g) (v_title g) (v_avatar g) (v_descr g) (v_pass g) x (v_members g) (v_pending g) (v_asking g) (v_cpending g) (v_casking g).
Definition w_members x g := mkV2 (v_key g) (v_rev g) (v_annc g) (v_title g) (v_avatar g) (v_descr g) (v_pass g) (v_acc g) x (v_pending g) (v_asking g) (v_cpending g) (v_casking g).
Definition w_pending x g := mkV2 (v_key g) (v_rev g) (v_annc g) (v_title g) (v_avatar g) (v_descr g) (v_pass g) (v_acc g) (v_members g) x (v_asking g) (v_cpending g) (v_casking g).
Definition w_asking x g := mkV2 (v_key g) (v_rev g) (v_annc g) (v_title g) (v_avatar g) (v_descr g) (v_pass g) (v_acc g) (v_members g) (v_pending g) x (v_cpending g) (v_casking g).
Definition w_cpending x g := mkV2 (v_key g) (v_rev g) (v_annc g) (v_title g) (v_avatar g) (v_descr g) (v_pass g) (v_acc g) (v_members g) (v_pending g) (v_asking g) x (v_casking g).
Definition w_casking x g := mkV2 (v_key g) (v_rev g) (v_annc g) (v_title g) (v_avatar g) (v_descr g) (v_pass g) (v_acc g) (v_members g) (v_pending g) (v_asking g) (v_cpending g) x.

(* GroupUser and its IsMember (/repo/entities/groupUser.go 7-20); the other fields are not used here *)
Record guser := mkUser { u_cipher : bytes; u_gkey : bytes }.
Definition u_is (u : guser) (uuid key : bytes) : bool := beq (u_gkey u) key && beq (u_cipher u) uuid.

(* the actions; AddPendingMembers, AddMembers and AddRequestingMembers hold pointers to what is added *)
Record newmember := mkNew { n_uid : bytes; n_role : Z; n_pkey : bytes; n_pres : bytes }.
Record newasking := mkNewAsking { k_uid : bytes; k_pkey : bytes; k_pres : bytes; k_time : Z }.
Record adding := mkAdding { d_new : option newmember; d_link : bool }.
Record actions := mkActions {
  c_rev : Z;
  c_add : list adding; c_del : list bytes; c_roles : list (bytes * Z); c_pkeys : list bytes;
  c_invite : list (option newmember); c_uninvite : list bytes; c_accept : list bytes;
  c_title : option bytes; c_avatar : option bytes; c_timer : option bytes;
  c_attrs : option Z; c_mems : option Z; c_link : option Z;
  c_ask : list (option newasking); c_unask : list bytes; c_approve : list (bytes * Z);
  c_pass : option bytes; c_descr : option bytes; c_annc : option bool }.

(* ---------- groupAuth.go ---------- *)
(* GetSourceMember (155-162) *)
Fixpoint first_member (p : bytes -> bool) (l : list member) : option member :=
  match l with [] => None | m :: r => if p (m_uuid m) then Some m else first_member p r end.
Definition source (u : guser) (g : v2) : option member := first_member (fun x => u_is u x (v_key g)) (v_members g).
(* isAdminstrator (76-83) *)
Definition is_admin (u : guser) (g : v2) : bool :=
  match source u g with Some m => m_role m =? R_ADMIN | None => false end.
(* a read of a field of the access control, a nil pointer panics *)
Definition acc {A} (g : v2) (k : access -> res A) : res A := match v_acc g with Some a => k a | None => Panic end.
(* isModifyAttributesAllowed (40-55) *)
Definition attrs_allowed (u : guser) (g : v2) : res bool :=
  match source u g with
  | None => Ok false
  | Some m => acc g (fun a =>
      Ok (if (a_attrs a =? A_ANY) || (a_attrs a =? A_MEMBER) then true
          else if a_attrs a =? A_ADMIN then m_role m =? R_ADMIN else false))
  end.
(* len(actions) == 1 && user.IsMember(actions[0]..., group.MasterKey) *)
Definition just_me (u : guser) (g : v2) (ids : list bytes) : bool :=
  match ids with [x] => u_is u x (v_key g) | _ => false end.
(* isDeleteMemberAllowed (85-93), isDeleteMembersPendingProfileKeyAllowed (56-62),
   isDeleteMembersPendingAdminApprovalAllowed (15-19) *)
Definition delete_allowed (u : guser) (g : v2) (ids : list bytes) : bool := is_admin u g || just_me u g ids.
(* isAddMembersPendingProfileKeyAllowed (63-74) *)
Definition invite_allowed (u : guser) (g : v2) : res bool :=
  match source u g with
  | None => Ok false
  | Some m => if m_role m =? R_ADMIN then Ok true
              else acc g (fun a => Ok ((a_members a =? A_MEMBER) || (a_members a =? A_ANY)))
  end.
(* isAddMembersPendingAdminApprovalAllowed (21-24) *)
Definition ask_allowed (pw : bytes) (g : v2) : res bool :=
  acc g (fun a => Ok ((a_link a =? A_ADMIN) && beq (v_pass g) pw)).
(* isAddMemberAllowed (94-118); ids are the user ids of the actions *)
Definition add_allowed (u : guser) (pw : bytes) (g : v2) (ids : list bytes) : res bool :=
  match source u g with
  | Some m => if m_role m =? R_ADMIN then Ok true
              else if m_role m =? R_DEFAULT then acc g (fun a => Ok ((a_members a =? A_MEMBER) || (a_members a =? A_ANY)))
              else Ok false
  | None => acc g (fun a => Ok (((a_members a =? A_ANY) || ((a_link a =? A_ANY) && beq (v_pass g) pw)) && just_me u g ids))
  end.

(* ---------- groupValidator.go ---------- *)
(* The zkgroup library: what is in a presentation (uuid and profile key ciphertext), and its check against the
   group. GroupValidator (20-25); no profileOperations is a nil pointer, the library reads a field of it. *)
Record validator := mkValidator { z_verify : option (bytes -> bytes -> bool); z_size : Z; z_title : Z; z_descr : Z }.
Definition zero_validator : validator := mkValidator None 0 0 0.
(* NewGroupValidator (27-34): the description gets the limit of the title *)
Definition NewGroupValidator (ops : bytes -> bytes -> bool) (max_size max_title max_descr : Z) : validator :=
  mkValidator (Some ops) max_size max_title max_title.
Definition lib := bytes -> option (bytes * bytes).

Definition verify (v : validator) (key pres : bytes) : res unit :=
  match z_verify v with None => Panic | Some f => if f key pres then Ok tt else Err EBadRequest end.

(* ValidatePresentationUpdate (36-65); the method of a nil validator, as in ModifyGroup, panics where it reads
   profileOperations, as one without profileOperations does *)
Definition presentation_update (zk : lib) (v : validator) (u : guser) (g : v2) (pres : bytes) : res (bytes * bytes) :=
  match pres with [] => Err EBadRequest | _ =>
    match zk pres with
    | None => Err EBadRequest
    | Some (uid, pk) =>
        if negb (u_is u uid (v_key g)) then Err EUnauthorized
        else let* _ := verify v (v_key g) pres in Ok (uid, pk)
    end
  end.

(* utils.UUIDStr (/repo/utils/utils.go 14-20): uuid.FromBytes wants 16 bytes *)
Definition UUIDStr (b : bytes) : res bytes :=
  if zlen b =? 16 then Ok (HexToUUID (hex b)) else Err EBadFormat.
(* ValidateMember (335-377) *)
Definition ValidateMember (zk : lib) (v : validator) (g : v2) (n : newmember) : res newmember :=
  if n_role n =? R_UNKNOWN then Err EBadRequest
  else match n_pres n with [] => Err EBadRequest | _ =>
    match zk (n_pres n) with
    | None => Err EBadRequest
    | Some (uid, pk) =>
        let* _ := verify v (v_key g) (n_pres n) in
        let* t := UUIDStr uid in
        Ok (mkNew t (n_role n) pk [])
    end end.
(* ValidateAddMember (304-333); the mark JoinFromInviteLink it sets changes nothing here *)
Fixpoint ValidateAddMember (zk : lib) (v : validator) (g : v2) (l : list adding) : res (list newmember) :=
  match l with
  | [] => Ok []
  | d :: r =>
      match d_new d with
      | None => Err EBadRequest
      | Some n =>
          if (zlen (n_pres n) =? 0) then Err EBadRequest
          else if d_link d then Err EBadRequest
          else let* n' := ValidateMember zk v g n in
               let* r' := ValidateAddMember zk v g r in Ok (n' :: r')
      end
  end.
(* ValidateMemberPendingProfileKey (249-277) and ValidateAddMembersPendingProfileKey (279-302) *)
Definition ValidateInvited (n : newmember) : res newmember :=
  if zlen (n_uid n) =? 0 then Err EBadRequest
  else if n_role n =? R_UNKNOWN then Err EBadRequest
  else if negb (zlen (n_pres n) =? 0) then Err EBadRequest
  else if negb (zlen (n_pkey n) =? 0) then Err EBadRequest
  else Ok (mkNew (n_uid n) (n_role n) [] []).
Fixpoint validate_invited (l : list (option newmember)) : res (list newmember) :=
  match l with
  | [] => Ok []
  | None :: _ => Err EBadRequest
  | Some n :: r => let* n' := ValidateInvited n in let* r' := validate_invited r in Ok (n' :: r')
  end.
Definition ValidateAddMembersPendingProfileKey (u : guser) (g : v2) (l : list (option newmember)) : res (list newmember) :=
  match l with [] => Ok [] | _ =>
    match source u g with None => Err EUnauthorized | Some _ => validate_invited l end end.
(* ValidateMemberPendingAdminApproval (198-247) and ValidateAddMembersPendingAdminApproval (176-196) *)
Definition ValidateAsking (zk : lib) (v : validator) (now : Z) (u : guser) (g : v2) (k : newasking) : res newasking :=
  if negb (zlen (k_uid k) =? 0) then Err EBadRequest
  else if negb (zlen (k_pkey k) =? 0) then Err EBadRequest
  else if zlen (k_pres k) =? 0 then Err EBadRequest
  else if negb (k_time k =? 0) then Err EBadRequest
  else match zk (k_pres k) with
       | None => Err EBadRequest
       | Some (uid, pk) =>
           let* _ := verify v (v_key g) (k_pres k) in
           if u_is u uid (v_key g) then Ok (mkNewAsking uid pk (k_pres k) now) else Err EBadRequest
       end.
Fixpoint validate_asking (zk : lib) (v : validator) (now : Z) (u : guser) (g : v2) (l : list (option newasking)) : res (list newasking) :=
  match l with
  | [] => Ok []
  | None :: _ => Err EBadRequest
  | Some k :: r => let* k' := ValidateAsking zk v now u g k in let* r' := validate_asking zk v now u g r in Ok (k' :: r')
  end.
Definition ValidateAddMembersPendingAdminApproval (zk : lib) (v : validator) (now : Z) (u : guser) (pw : bytes) (g : v2)
    (l : list (option newasking)) : res (list newasking) :=
  match l with [] => Ok [] | _ =>
    if beq pw (v_pass g) then validate_asking zk v now u g l else Err EUnauthorized end.

(* membership and the number of keys of a map filled from a list *)
Definition mem (x : bytes) (l : list bytes) : bool := existsb (beq x) l.
Fixpoint keys (l : list bytes) : list bytes :=
  match l with [] => [] | x :: r => if mem x r then keys r else x :: keys r end.
Fixpoint dups (l : list bytes) : bool := match l with [] => false | x :: r => mem x r || dups r end.

(* ValidateRoles (85-99) *)
Definition role_valid (r : Z) : bool := (r =? R_DEFAULT) || (r =? R_ADMIN).
Definition ValidateRoles (g : v2) : bool :=
  forallb (fun m => role_valid (m_role m)) (v_members g) && forallb (fun q => role_valid (q_role q)) (v_pending g).
(* ValidateAccessControl (66-83) *)
Definition one_of (x : Z) (l : list Z) : bool := existsb (Z.eqb x) l.
Definition base_access : list Z := [A_MEMBER; A_UNKNOWN; A_ADMIN].
Definition ValidateAccessControl (g : v2) : res unit :=
  acc g (fun a =>
    if negb (one_of (a_attrs a) base_access) then Err EBadRequest
    else if negb (one_of (a_members a) base_access) then Err EBadRequest
    else if negb (one_of (a_link a) (base_access ++ [A_ANY; A_UNSAT])) then Err EBadRequest
    else Ok tt).
(* GetAccessControl().GetAddFromInviteLink(): a nil pointer gives the zero value *)
Definition get_link (g : v2) : Z := match v_acc g with Some a => a_link a | None => 0 end.
(* ValidateFinalGroupState (101-174) *)
Definition m_ids (g : v2) := map m_uuid (v_members g).
Definition q_ids (g : v2) := map q_uuid (v_pending g).
Definition r_ids (g : v2) := map r_uuid (v_asking g).
Definition ValidateFinalGroupState (v : validator) (g : v2) : res unit :=
  if zlen (v_title g) =? 0 then Err EBadRequest
  else if zlen (v_title g) >? z_title v then Err EBadRequest
  else if zlen (v_descr g) >? z_descr v then Err EBadRequest
  else if (zlen (v_pass g) =? 0) && negb (get_link g =? A_UNSAT) && negb (get_link g =? A_UNKNOWN) then Err EBadRequest
  else if zlen (v_pending g) + zlen (v_members g) >? z_size v then Err EBadRequest
  else if zlen (v_asking g) >? z_size v then Err EBadRequest
  else if negb (zlen (keys (m_ids g)) =? zlen (v_members g)) || negb (zlen (keys (q_ids g)) =? zlen (v_pending g))
          || negb (zlen (keys (r_ids g)) =? zlen (v_asking g)) then Err EBadRequest
  else if existsb (fun x => mem x (q_ids g) || mem x (r_ids g)) (m_ids g) then Err EBadRequest
  else if existsb (fun x => mem x (q_ids g)) (r_ids g) then Err EBadRequest
  else if negb (ValidateRoles g) then Err EBadRequest
  else ValidateAccessControl g.

(* ---------- groupChange.go ---------- *)
(* im is groupImmut, g the group *)
Definition out := (v2 * res unit)%type.
Definition allowed (b : res bool) (g : v2) (k : out) : out :=
  match b with Ok true => k | Ok false => (g, Err EUnauthorized) | Err e => (g, Err e) | Panic => (g, Panic) end.
Definition refuse (b : bool) (g : v2) (k : out) : out := if b then (g, Err EBadRequest) else k.

(* ApplyAddMembers (652-732) *)
Fixpoint add_loop (admin : bool) (ids : list bytes) (l : list newmember) (g : v2) : out :=
  match l with
  | [] => (g, Ok tt)
  | n :: r =>
      if (n_role n =? R_ADMIN) && negb admin then (g, Err EUnauthorized)
      else refuse (zlen (n_uid n) =? 0) g (refuse (zlen (n_pkey n) =? 0) g (refuse (n_role n =? R_UNKNOWN) g
        (add_loop admin ids r
          (w_asking (filter (fun a => negb (mem (r_uuid a) ids)) (v_asking g))
          (w_pending (filter (fun q => negb (mem (q_uuid q) ids)) (v_pending g))
          (w_members (v_members g ++ [mkMember (n_uid n) (n_role n) (n_pkey n) ((v_rev g + 1) mod 2 ^ 32)]) g))))))
  end.
Definition ApplyAddMembers (u : guser) (pw : bytes) (im : v2) (l : list newmember) (g : v2) : out :=
  match l with [] => (g, Ok tt) | _ =>
    let ids := map n_uid l in
    allowed (add_allowed u pw im ids) g
      (refuse (dups ids) g (refuse (existsb (fun x => mem x (m_ids im)) ids) g
        (add_loop (is_admin u im) ids l g)))
  end.
(* ApplyDeleteMembers (610-650) *)
Definition ApplyDeleteMembers (u : guser) (im : v2) (ids : list bytes) (g : v2) : out :=
  match ids with [] => (g, Ok tt) | _ =>
    allowed (Ok (delete_allowed u im ids)) g
      (refuse (dups ids) g (refuse (existsb (fun x => negb (mem x (m_ids g))) ids) g
        (w_members (filter (fun m => negb (mem (m_uuid m) ids)) (v_members g)) g, Ok tt)))
  end.
(* ApplyModifyMemberRoles (551-608): the map keeps the last member of each id, the role of that one is set *)
Fixpoint lookup_role (x : bytes) (l : list (bytes * Z)) : option Z :=
  match l with [] => None | (y, r) :: t => if beq x y then Some r else lookup_role x t end.
Fixpoint set_roles (l : list (bytes * Z)) (ms : list member) : list member :=
  match ms with
  | [] => []
  | m :: t => (match lookup_role (m_uuid m) l with
               | Some r => if mem (m_uuid m) (map m_uuid t) then m else mkMember (m_uuid m) r (m_pkey m) (m_joined m)
               | None => m end) :: set_roles l t
  end.
Fixpoint roles_ok (ids : list bytes) (seen : list bytes) (l : list (bytes * Z)) : bool :=
  match l with
  | [] => true
  | (x, r) :: t => negb (zlen x =? 0) && negb (r =? R_UNKNOWN) && negb (mem x seen) && mem x ids && roles_ok ids (x :: seen) t
  end.
Definition ApplyModifyMemberRoles (u : guser) (im : v2) (l : list (bytes * Z)) (g : v2) : out :=
  match l with [] => (g, Ok tt) | _ =>
    allowed (Ok (is_admin u im)) g
      (refuse (negb (roles_ok (m_ids g) [] l)) g (w_members (set_roles l (v_members g)) g, Ok tt))
  end.
(* the loop over the presentations of ApplyModifyMemberProfileKeys and ApplyPromoteMembersPendingProfileKey *)
Fixpoint presentations (zk : lib) (v : validator) (u : guser) (im : v2) (l : list bytes) : res (list (bytes * bytes)) :=
  match l with
  | [] => Ok []
  | p :: r => let* x := presentation_update zk v u im p in let* y := presentations zk v u im r in Ok (x :: y)
  end.
Fixpoint lookup_key (x : bytes) (l : list (bytes * bytes)) : option bytes :=
  match l with [] => None | (y, r) :: t => if beq x y then Some r else lookup_key x t end.
(* ApplyModifyMemberProfileKeys (515-549) *)
Definition ApplyModifyMemberProfileKeys (zk : lib) (v : validator) (u : guser) (im : v2) (l : list bytes) (g : v2) : out :=
  match presentations zk v u im l with
  | Err e => (g, Err e)
  | Panic => (g, Panic)
  | Ok ps => refuse (dups (map fst ps)) g
      (w_members (map (fun m => match lookup_key (m_uuid m) ps with
                                | Some k => mkMember (m_uuid m) (m_role m) k (m_joined m) | None => m end) (v_members g)) g, Ok tt)
  end.
(* ApplyAddMembersPendingProfileKeys (450-513) *)
Fixpoint invite_check (admin : bool) (seen : list bytes) (l : list newmember) : res unit :=
  match l with
  | [] => Ok tt
  | n :: r =>
      if zlen (n_uid n) =? 0 then Err EBadRequest
      else if zlen (n_pkey n) =? 0 then Err EBadRequest
      else if zlen (n_pres n) =? 0 then Err EBadRequest
      else if n_role n =? R_UNKNOWN then Err EBadRequest
      else if (n_role n =? R_ADMIN) && negb admin then Err EUnauthorized
      else if mem (n_uid n) seen then Err EBadRequest
      else invite_check admin (n_uid n :: seen) r
  end.
Definition ApplyAddMembersPendingProfileKeys (u : guser) (im : v2) (l : list newmember) (g : v2) : out :=
  match l with [] => (g, Ok tt) | _ =>
    allowed (invite_allowed u im) g
      match invite_check (is_admin u im) [] l with
      | Err e => (g, Err e)
      | Panic => (g, Panic)
      | Ok _ =>
          refuse (existsb (fun n => mem (n_uid n) (m_ids g) || mem (n_uid n) (q_ids g)) l) g
            match source u g with
            | None => (g, Panic)
            | Some s => (w_pending (v_pending g ++ map (fun n => mkPending (n_uid n) (n_role n) (m_uuid s)) l) g, Ok tt)
            end
      end
  end.
(* ApplyDeleteMembersPendingProfileKey (407-448) *)
Definition ApplyDeleteMembersPendingProfileKey (u : guser) (im : v2) (ids : list bytes) (g : v2) : out :=
  match ids with [] => (g, Ok tt) | _ =>
    allowed (Ok (delete_allowed u im ids)) g
      (refuse (dups ids) g (refuse (existsb (fun x => negb (mem x (q_ids g))) ids) g
        (w_pending (filter (fun q => negb (mem (q_uuid q) ids)) (v_pending g)) g, Ok tt)))
  end.
(* ApplyPromoteMembersPendingProfileKey (361-405): it is the pending members of GroupContext that change *)
Definition ApplyPromoteMembersPendingProfileKey (zk : lib) (v : validator) (u : guser) (im : v2) (l : list bytes) (g : v2) : out :=
  match presentations zk v u im l with
  | Err e => (g, Err e)
  | Panic => (g, Panic)
  | Ok ps => refuse (dups (map fst ps)) g (refuse (existsb (fun x => negb (mem x (q_ids g))) (map fst ps)) g
      (w_cpending (map (fun m => match lookup_key (m_uuid m) ps with
                                 | Some k => mkMember (m_uuid m) (m_role m) k ((v_rev g + 1) mod 2 ^ 32) | None => m end) (v_cpending g)) g, Ok tt))
  end.
(* ApplyModifyTitle (342-359), ApplyModifyAvatar (317-340; IsValidAvatarUrl 379-380 is always true),
   ApplyModifyDisappearingMessageTimer (300-315; changes nothing), ApplyModifyDescription (41-53) *)
Definition ApplyModifyTitle (u : guser) (im : v2) (o : option bytes) (g : v2) : out :=
  match o with None => (g, Ok tt) | Some t =>
    refuse (zlen t =? 0) g (allowed (attrs_allowed u im) g (w_title t g, Ok tt)) end.
Definition ApplyModifyAvatar (u : guser) (im : v2) (o : option bytes) (g : v2) : out :=
  match o with None => (g, Ok tt) | Some t => allowed (attrs_allowed u im) g (w_avatar t g, Ok tt) end.
Definition ApplyModifyTimer (u : guser) (im : v2) (o : option bytes) (g : v2) : out :=
  match o with None => (g, Ok tt) | Some _ => allowed (attrs_allowed u im) g (g, Ok tt) end.
Definition ApplyModifyDescription (u : guser) (im : v2) (o : option bytes) (g : v2) : out :=
  match o with None => (g, Ok tt) | Some t => allowed (attrs_allowed u im) g (w_descr t g, Ok tt) end.
(* ApplyModifyAttributesAccess (279-298), ApplyModifyMembersAccess (258-277),
   ApplyModifyAddFromInviteLinkAccess (235-256); a write through a nil AccessControl panics *)
Definition set_acc (g : v2) (f : access -> access) : out :=
  match v_acc g with Some a => (w_acc (Some (f a)) g, Ok tt) | None => (g, Panic) end.
Definition ApplyModifyAttributesAccess (u : guser) (im : v2) (o : option Z) (g : v2) : out :=
  match o with None => (g, Ok tt) | Some x =>
    refuse (negb (x =? A_ADMIN) && negb (x =? A_MEMBER)) g
      (allowed (Ok (is_admin u im)) g (set_acc g (fun a => mkAccess x (a_members a) (a_link a)))) end.
Definition ApplyModifyMembersAccess (u : guser) (im : v2) (o : option Z) (g : v2) : out :=
  match o with None => (g, Ok tt) | Some x =>
    refuse (negb (x =? A_ADMIN) && negb (x =? A_MEMBER)) g
      (allowed (Ok (is_admin u im)) g (set_acc g (fun a => mkAccess (a_attrs a) x (a_link a)))) end.
Definition ApplyModifyAddFromInviteLinkAccess (u : guser) (im : v2) (o : option Z) (g : v2) : out :=
  match o with None => (g, Ok tt) | Some x =>
    allowed (Ok (is_admin u im)) g
      (refuse (negb (x =? A_ADMIN) && negb (x =? A_UNSAT) && negb (x =? A_ANY)) g
        (set_acc g (fun a => mkAccess (a_attrs a) (a_members a) x))) end.
(* ApplyAddMembersPendingAdminApproval (174-233): the request goes to GroupContext *)
Definition ApplyAddMembersPendingAdminApproval (u : guser) (pw : bytes) (im : v2) (l : list newasking) (g : v2) : out :=
  match l with [] => (g, Ok tt) | _ =>
    let ids := map k_uid l in
    allowed (ask_allowed pw im) g
      (refuse (dups ids) g
        (refuse (existsb (fun x => mem x (m_ids g) || mem x (q_ids g) || mem x (r_ids g)) ids) g
          (refuse (negb (just_me u g ids)) g
            (w_casking (v_casking g ++ map (fun k => mkAsking (k_uid k) (k_pkey k)) l) g, Ok tt))))
  end.
(* ApplyDeleteMembersPendingAdminApproval (129-172) *)
Definition ApplyDeleteMembersPendingAdminApproval (u : guser) (im : v2) (ids : list bytes) (g : v2) : out :=
  match ids with [] => (g, Ok tt) | _ =>
    allowed (Ok (delete_allowed u im ids)) g
      (refuse (dups ids) g (refuse (existsb (fun x => negb (mem x (r_ids g))) ids) g
        (w_asking (filter (fun a => negb (mem (r_uuid a) ids)) (v_asking g)) g, Ok tt)))
  end.
(* ApplyPromotePendingAdminApproval (67-127): mm and ps are the members and the requests at the start *)
Fixpoint last_pkey (x : bytes) (l : list asking) : option bytes :=
  match l with [] => None
  | a :: r => match last_pkey x r with Some k => Some k | None => if beq x (r_uuid a) then Some (r_pkey a) else None end end.
Fixpoint approve_loop (mm : list bytes) (ps : list asking) (seen : list bytes) (l : list (bytes * Z)) (g : v2) : out :=
  match l with
  | [] => (g, Ok tt)
  | (x, r) :: t =>
      refuse (mem x seen) g (refuse (mem x mm) g
        match last_pkey x ps with
        | None => (g, Err EBadRequest)
        | Some k => approve_loop mm ps (x :: seen) t
                      (w_members (v_members g ++ [mkMember x r k ((v_rev g + 1) mod 2 ^ 32)]) g)
        end)
  end.
Definition ApplyPromotePendingAdminApproval (u : guser) (im : v2) (l : list (bytes * Z)) (g : v2) : out :=
  match l with [] => (g, Ok tt) | _ =>
    allowed (Ok (is_admin u im)) g
      match approve_loop (m_ids g) (v_asking g) [] l g with
      | (g', Ok _) => (w_asking (filter (fun a => negb (mem (r_uuid a) (map fst l))) (v_asking g')) g', Ok tt)
      | r => r
      end
  end.
(* ApplyModifyInviteLinkPassword (55-65), ApplyModifyAnnouncementsOnly (28-39) *)
Definition ApplyModifyInviteLinkPassword (u : guser) (im : v2) (o : option bytes) (g : v2) : out :=
  match o with None => (g, Ok tt) | Some p => allowed (Ok (is_admin u im)) g (w_pass p g, Ok tt) end.
Definition ApplyModifyAnnouncementsOnly (u : guser) (im : v2) (o : option bool) (g : v2) : out :=
  match o with None => (g, Ok tt) | Some b => allowed (Ok (is_admin u im)) g (w_annc b g, Ok tt) end.

(* ---------- groupModify.go ---------- *)
(* getSourceUuid (253-294), where groupImmut is the group *)
Fixpoint first_id (p : bytes -> bool) (l : list bytes) : bytes :=
  match l with [] => [] | x :: r => if p x then x else first_id p r end.
Definition getSourceUuid (u : guser) (g : v2) : bytes :=
  let p := fun x => u_is u x (v_key g) in
  match first_id p (m_ids g) with [] =>
    match first_id p (q_ids g) with [] => first_id p (r_ids g) | x => x end | x => x end.

Definition step := v2 -> v2 -> out.   (* groupImmut, then the group *)
(* the Apply calls one after the other; groupImmut := g (59) is the same pointer, so each of them reads the group
   as the ones before left it. im tells what groupImmut is for the current group. *)
Fixpoint run (im : v2 -> v2) (ss : list step) (g : v2) : out :=
  match ss with
  | [] => (g, Ok tt)
  | s :: r => match s (im g) g with (g', Ok _) => run im r g' | o => o end
  end.
(* the calls of ModifyGroup in order (61-206); adds, invited and asked are the lists the validators give back *)
Definition steps (zk : lib) (v : validator) (u : guser) (pw : bytes) (c : actions)
    (adds invited : list newmember) (asked : list newasking) : list step :=
  [ (fun im => ApplyAddMembers u pw im adds);
    (fun im => ApplyDeleteMembers u im (c_del c));
    (fun im => ApplyModifyMemberRoles u im (c_roles c));
    (fun im => ApplyModifyMemberProfileKeys zk v u im (c_pkeys c));
    (fun im => ApplyAddMembersPendingProfileKeys u im invited);
    (fun im => ApplyDeleteMembersPendingProfileKey u im (c_uninvite c));
    (fun im => ApplyPromoteMembersPendingProfileKey zk v u im (c_accept c));
    (fun im => ApplyModifyTitle u im (c_title c));
    (fun im => ApplyModifyAvatar u im (c_avatar c));
    (fun im => ApplyModifyTimer u im (c_timer c));
    (fun im => ApplyModifyAttributesAccess u im (c_attrs c));
    (fun im => ApplyModifyMembersAccess u im (c_mems c));
    (fun im => ApplyModifyAddFromInviteLinkAccess u im (c_link c));
    (fun im => ApplyAddMembersPendingAdminApproval u pw im asked);
    (fun im => ApplyDeleteMembersPendingAdminApproval u im (c_unask c));
    (fun im => ApplyPromotePendingAdminApproval u im (c_approve c));
    (fun im => ApplyModifyInviteLinkPassword u im (c_pass c));
    (fun im => ApplyModifyDescription u im (c_descr c));
    (fun im => ApplyModifyAnnouncementsOnly u im (c_annc c)) ].
(* ModifyGroup (25-251) with the validator it would use; pw0 is the text of the password parameter, seal the
   outcome of marshalling and signing the actions *)
Definition modify (zk : lib) (v : validator) (now : Z) (seal : res unit) (u : guser) (pw0 : bytes) (c : actions) (g : v2) : out :=
  match (if zlen pw0 =? 0 then Ok [] else dec64 pw0) with
  | Err e => (g, Err e) | Panic => (g, Panic)
  | Ok pw =>
  match ValidateAddMember zk v g (c_add c) with
  | Err e => (g, Err e) | Panic => (g, Panic)
  | Ok adds =>
  match ValidateAddMembersPendingProfileKey u g (c_invite c) with
  | Err e => (g, Err e) | Panic => (g, Panic)
  | Ok invited =>
  match ValidateAddMembersPendingAdminApproval zk v now u pw g (c_ask c) with
  | Err e => (g, Err e) | Panic => (g, Panic)
  | Ok asked =>
  match run (fun x => x) (steps zk v u pw c adds invited asked) g with
  | (g', Ok _) =>
      match getSourceUuid u g' with
      | [] => (g', Err EUnauthorized)
      | _ => match seal with
             | Err e => (g', Err e) | Panic => (g', Panic)
             | Ok _ => let g'' := w_rev (c_rev c) g' in (g'', ValidateFinalGroupState v g'')
             end
      end
  | o => o
  end end end end end.
(* as it is: groupValidator := GroupValidator{} (27) and GroupChangeApplicator{} (26) *)
Definition ModifyGroup (zk : lib) := modify zk zero_validator.
