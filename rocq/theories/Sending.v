(* Sending a message: /repo/sender.go, the message part of /repo/server.go (749-956), and
   makePreKeyBundle of /repo/prekeys.go (161-213). The server is a state machine given from outside. *)
From Coq Require Import ZArith List Lia Bool.
From Verif Require Import Bytes Res Wire Crypto Cbc Messages Session Builder RecordCodec Content Encodings.
Import ListNotations.
Open Scope Z_scope.

(* attachmentPointerV3, /repo/textsecure.go 93-101 *)
Record pointer := mkPtr { pt_cdnkey : bytes; pt_cdn : Z; pt_ct : bytes; pt_keys : bytes; pt_digest : bytes;
  pt_size : Z; pt_voice : bool }.
(* groupMessage, /repo/groups.go 191-196 *)
Record groupmsg := mkGm { gm_id : bytes; gm_name : bytes; gm_members : list bytes; gm_type : Z }.
(* outgoingMessage, /repo/textsecure.go 103-112 *)
Record outgoing := mkOut { o_dest : bytes; o_text : bytes; o_group : option groupmsg; o_gv2 : option gctx2;
  o_att : option pointer; o_flags : Z; o_expire : Z; o_time : option Z }.

Definition voice_mp3 : bytes := [118; 111; 105; 99; 101; 46; 109; 112; 51].

(* /repo/server.go 749-793; profile key from the configuration (nil or not), the clock in ms *)
Definition createMessage (profileKey : option bytes) (now : Z) (o : outgoing) : datamsg :=
  mkData (match o_text o with [] => None | t => Some t end)
    (match o_att o with
     | None => []
     | Some p => [mkAtt (Some (inr (pt_cdnkey p))) (Some (pt_ct p)) (Some (pt_keys p)) (Some (pt_size p))
                    (Some (pt_digest p)) (Some (if pt_voice p then voice_mp3 else []))
                    (if pt_voice p then Some 1 else None) (Some (pt_cdn p))]
     end)
    (Some (o_flags o)) (Some (o_expire o)) profileKey
    (Some (match o_time o with Some t => t | None => now end)) (o_gv2 o) None [] None None.

(* /repo/server.go 795-802 *)
Definition padMessage (msg : bytes) : bytes :=
  let n := length msg in
  let l := (n + 160 - (n + 160) mod 160)%nat in
  setnth n 128 (msg ++ zeros (l - n)).

(* /repo/server.go 804-811: cut at the last 0x80 *)
Fixpoint cut_rev (r : bytes) : option bytes :=
  match r with [] => None | c :: t => if c =? 128 then Some (rev t) else cut_rev t end.
Definition stripPadding (msg : bytes) : bytes := match cut_rev (rev msg) with Some m => m | None => msg end.

(* /repo/textsecure.go 477-486 *)
Definition recID (source : bytes) : res bytes :=
  match source with
  | [] => Err EBadFormat
  | c :: t => if c =? 43 then Ok t else Ok source
  end.

(* what the server may answer to GET prekeys (/repo/prekeys.go 15-48), after JSON decoding *)
Record pkdev := mkPkdev { pd_dev : Z; pd_reg : Z; pd_spk : option (Z * bytes * bytes); pd_pk : option (Z * bytes) }.
Inductive pkreply : Type :=
| PkErr (e : err)                                    (* no connection or an error status *)
| PkResp (ident : bytes) (devs : list pkdev).

(* jsonMessage, /repo/server.go 741-747 *)
Record jmsg := mkJ { j_type : mtype; j_dev : Z; j_reg : Z; j_content : bytes }.
Record request := mkReq { q_dest : bytes; q_ts : Z; q_msgs : list jmsg }.
(* the answer to PUT messages; the lists are what the JSON decoder finds, empty if it finds nothing *)
Inductive putreply : Type :=
| PutNet                                             (* PutJSON returned an error *)
| PutStatus (status : Z) (missing extra stale : list Z) (needsSync : bool).

Record server := mkServer {
  sv_state : Type;
  sv_prekeys : sv_state -> bytes -> Z -> pkreply * sv_state;
  sv_put : sv_state -> request -> putreply * sv_state }.

(* what is exchanged with the server, in order *)
Inductive event : Type :=
| EvFetch (dest : bytes) (dev : Z) (r : pkreply)
| EvPut (q : request) (r : putreply).

(* transport/transport.go 66-68 *)
Definition isError (status : Z) : bool := (status <? 200) || (300 <=? status).

Section Send.
Variable C : crypto.
Variable V : server.
(* the randomness of the session builds, two keys each *)
Variable rnd : nat -> bytes.

Record cstate := mkCs { cs_w : world; cs_devs : bytes -> option (list Z); cs_rnd : nat; cs_srv : sv_state V;
  cs_log : list event }.
Definition set_w st w := mkCs w (cs_devs st) (cs_rnd st) (cs_srv st) (cs_log st).
Definition set_devs st uuid ds := mkCs (cs_w st) (fun u => if beq u uuid then Some ds else cs_devs st u)
  (cs_rnd st) (cs_srv st) (cs_log st).
Definition devs_of st uuid : list Z := match cs_devs st uuid with Some l => l | None => [] end.

(* /repo/prekeys.go 161-213, with getPreKeys (/repo/server.go 568-582). A prekey text that does not
   decode reaches NewECPublicKey as nil, which panics, before its error is looked at (183-187). *)
Definition bundle_of (reply : pkreply) : res bundle :=
  match reply with
  | PkErr e => Err e
  | PkResp ident [d] =>
      let* pk := match pd_pk d with
                 | None => Ok (0, None)
                 | Some (id, text) =>
                     match decodeKey text with Ok k => Ok (id, Some k) | _ => Panic end
                 end in
      match pd_spk d with
      | None => Err EOther
      | Some (sid, stext, sigtext) =>
          let* spk := decodeKey stext in
          let* sig := decodeSignature sigtext in
          let* ik := decodeKey ident in
          Ok (mkBundle (pd_reg d) (pd_dev d) (fst pk) (snd pk) (to_i32 sid) (Some spk) sig ik)
      end
  | PkResp _ _ => Err EOther
  end.
Definition makePreKeyBundle (st : cstate) (uuid : bytes) (dev : Z) : res bundle * cstate :=
  let (reply, s') := sv_prekeys V (cs_srv st) uuid dev in
  (bundle_of reply, mkCs (cs_w st) (cs_devs st) (cs_rnd st) s' (cs_log st ++ [EvFetch uuid dev reply])).

(* /repo/server.go 823-836: make sure there is a session. The builder is for the device named in the
   reply, not for the one asked for. *)
Definition ensure_session (st : cstate) (uuid recid : bytes) (dev : Z) : res unit * cstate :=
  match w_sess (cs_w st) recid dev with
  | Some _ => (Ok tt, st)
  | None =>
      let (b, st1) := makePreKeyBundle st uuid dev in
      match b with
      | Err e => (Err e, st1)
      | Panic => (Panic, st1)
      | Ok b =>
          let (r, l) := BuildSenderSession C (cs_w st1) recid (b_dev b) b (rnd (cs_rnd st1)) (rnd (S (cs_rnd st1))) in
          (r, mkCs (apply_effs (cs_w st1) l) (cs_devs st1) (cs_rnd st1 + 2) (cs_srv st1) (cs_log st1))
      end
  end.

(* /repo/server.go 837-857 *)
Definition device_message (st : cstate) (recid padded : bytes) (dev : Z) : res jmsg * cstate :=
  match SessionEncryptMessage C (cs_w st) recid dev padded with
  | (Ok (b, ty), l) =>
      let w' := apply_effs (cs_w st) l in
      (Ok (mkJ ty dev (s_rreg (r_cur (LoadSession w' recid dev))) (enc64 b)), set_w st w')
  | (Err e, l) => (Err e, set_w st (apply_effs (cs_w st) l))
  | (Panic, l) => (Panic, set_w st (apply_effs (cs_w st) l))
  end.

Fixpoint build_devices (uuid recid padded : bytes) (devs : list Z) (st : cstate) : res (list jmsg) * cstate :=
  match devs with
  | [] => (Ok [], st)
  | d :: t =>
      match ensure_session st uuid recid d with
      | (Err e, st1) => (Err e, st1)
      | (Panic, st1) => (Panic, st1)
      | (Ok _, st1) =>
          match device_message st1 recid padded d with
          | (Err e, st2) => (Err e, st2)
          | (Panic, st2) => (Panic, st2)
          | (Ok j, st2) =>
              match build_devices uuid recid padded t st2 with
              | (Ok js, st3) => (Ok (j :: js), st3)
              | r => r
              end
          end
      end
  end.

(* /repo/server.go 813-863 *)
Definition buildMessage (uuid padded : bytes) (devs : list Z) (st : cstate) : res (list jmsg) * cstate :=
  match recID uuid with
  | Err e => (Err e, st)
  | Panic => (Panic, st)
  | Ok recid => build_devices uuid recid padded devs st
  end.

(* /repo/server.go 890-914: the new device list *)
Definition correct_devices (devs missing extra : list Z) : list Z :=
  filter (fun d => negb (existsb (Z.eqb d) extra)) devs ++ missing.
(* /repo/server.go 915-928 *)
Definition delete_sessions (w : world) (recid : bytes) (stale : list Z) : world :=
  fold_left (fun w d => set_sess w recid d None) stale w.

(* /repo/server.go 883-956. None: the recursion did not come to an end within the fuel. *)
Fixpoint buildAndSend (fuel : nat) (uuid padded : bytes) (ts : Z) (st : cstate) : option (res (bool * Z)) * cstate :=
  match fuel with
  | O => (None, st)
  | S f =>
      match buildMessage uuid padded (devs_of st uuid) st with
      | (Err e, st1) => (Some (Err e), st1)
      | (Panic, st1) => (Some Panic, st1)
      | (Ok js, st1) =>
          let q := mkReq uuid ts js in
          let (reply, s') := sv_put V (cs_srv st1) q in
          let st2 := mkCs (cs_w st1) (cs_devs st1) (cs_rnd st1) s' (cs_log st1 ++ [EvPut q reply]) in
          match reply with
          | PutNet => (Some (Err EOther), st2)
          | PutStatus status missing extra stale needsSync =>
              if status =? 409 then
                buildAndSend f uuid padded ts (set_devs st2 uuid (correct_devices (devs_of st2 uuid) missing extra))
              else if status =? 410 then
                match stale, recID uuid with
                | _ :: _, Err e => (Some (Err e), st2)
                | _, Ok recid => buildAndSend f uuid padded ts (set_w st2 (delete_sessions (cs_w st2) recid stale))
                | _, _ => buildAndSend f uuid padded ts st2
                end
              else if isError status then (Some (Err (EServer status)), st2)
              else (Some (Ok (needsSync, ts)), st2)
          end
      end
  end.

(* deviceLists[user] = []uint32{1} if there is none, sender.go 16-18 *)
Definition default_devs (st : cstate) (uuid : bytes) : cstate :=
  match cs_devs st uuid with Some _ => st | None => set_devs st uuid [1] end.

(* /repo/sender.go 63-84: resp is nil when err is set, and resp.Timestamp is a nil dereference *)
Definition sendSyncMessage (fuel : nat) (self : bytes) (sm : syncmsg) (ts : Z) (st : cstate) : option (res Z) * cstate :=
  match buildAndSend fuel self (padMessage (marshal_sync sm)) ts (default_devs st self) with
  | (None, st') => (None, st')
  | (Some (Ok (_, t)), st') => (Some (Ok t), st')
  | (Some (Err _), st') => (Some Panic, st')
  | (Some Panic, st') => (Some Panic, st')
  end.

(* /repo/sender.go 13-61; self is the own UUID or number (65-68) *)
Definition sendMessage (fuel : nat) (self : bytes) (profileKey : option bytes) (now : Z) (o : outgoing) (st : cstate)
  : option (res Z) * cstate :=
  let dest := o_dest o in
  let dm := createMessage profileKey now o in
  let ts := match o_time o with Some t => t | None => now end in
  match buildAndSend fuel dest (padMessage (marshal_data dm)) ts (default_devs st dest) with
  | (None, st') => (None, st')
  | (Some (Err e), st') => (Some (Err e), st')
  | (Some Panic, st') => (Some Panic, st')
  | (Some (Ok (needsSync, t)), st') =>
      if needsSync then
        let e164 := match dest with c :: _ => if c =? 43 then Some dest else None | [] => None end in
        let uuid := match dest with c :: _ => if c =? 43 then None else Some dest | [] => None end in
        let sm := mkSync (Some (mkSent e164 uuid (Some ts) (Some dm))) false false None [] false None in
        match sendSyncMessage fuel self sm ts st' with
        | (None, st'') => (None, st'')
        | (Some Panic, st'') => (Some Panic, st'')
        | (Some (Ok _), st'') | (Some (Err _), st'') => (Some (Ok t), st'')
        end
      else (Some (Ok t), st')
  end.

(* SendMessage and EndSession, /repo/textsecure.go 134-142, 188-204 *)
Definition SendMessage fuel self pk now (uuid text : bytes) (timer : Z) st :=
  sendMessage fuel self pk now (mkOut uuid text None None None 0 timer None) st.
Definition EndSession fuel self pk now (uuid text : bytes) st : option (res Z) * cstate :=
  match sendMessage fuel self pk now (mkOut uuid text None None None 1 0 None) st with
  | (Some (Ok t), st') =>
      match recID uuid with
      | Ok recid => (Some (Ok t), set_w st' (mkWorld (w_ident (cs_w st')) (w_reg (cs_w st')) (w_trust_all (cs_w st'))
                        (fun r d => if beq r recid then None else w_sess (cs_w st') r d) (w_pre (cs_w st'))
                        (w_spk (cs_w st')) (w_ids (cs_w st'))))
      | Err e => (Some (Err e), st')
      | Panic => (Some Panic, st')
      end
  | r => r
  end.
End Send.
