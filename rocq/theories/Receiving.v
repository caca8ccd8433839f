(* Reception: the websocket loop, the envelope and message handlers of /repo/websocket.go,
   /repo/textsecure.go, /repo/handler.go, /repo/sync.go and the attachment download of
   /repo/attachments.go. A handler returns its outcome and the list of what it did, in order; stopping the
   client at some moment keeps a prefix of that list. Not modelled: logging, the contents of the replies to
   synchronisation requests (only that one is sent), the group code behind HandleGroupsV2 and the external
   process behind crayfish.HandleEnvelope (their outcomes are arguments). All client callbacks are set. *)
From Coq Require Import ZArith List Lia Bool.
From Verif Require Import Bytes Res Wire Crypto Cbc Messages Session Builder RecordCodec Content Sending Encodings.
Import ListNotations.
Open Scope Z_scope.

(* /repo/textsecure.go Message (the fields the handlers set) *)
Record message := mkMsg { m_source : bytes; m_uuid : bytes; m_text : bytes; m_atts : list bytes;
  m_group : option bytes; m_flags : Z; m_expire : Z; m_pkey : option bytes; m_ts : Z;
  m_quote : option (list wfield); m_contact : list (list wfield); m_sticker : option (list wfield);
  m_reaction : option (list wfield) }.
Definition plain_msg (src uuid text : bytes) (ts : Z) : message :=
  mkMsg src uuid text [] None 0 0 None ts None [] None None.

(* calls of the client's callbacks, /repo/textsecure.go 212-229, and the two outgoing reactions *)
Inductive hcall : Type :=
| HMessage (m : message) | HTyping (m : message) | HReceiptMessage (m : message) | HCallMessage (m : message)
| HReceipt (uuid : bytes) (dev ts : Z) | HSyncRead (uuid : bytes) (ts : Z) | HSyncSent (m : message) (ts : Z)
| HSyncReply (request : Z) | HVerifiedReply.

Inductive act : Type :=
| AStore (e : eff)                              (* a write of the session layer *)
| ADelete (rid : bytes)                         (* DeleteAllSessions(rid) *)
| AContact (uuid : bytes) (key : option bytes)  (* contacts.UpdateProfileKey *)
| ACall (h : hcall).

(* what reception reads and changes: the stores and the profile keys of the contacts *)
Record rstate := mkRs { rs_w : world; rs_pkeys : bytes -> option (option bytes) }.
Definition delete_all (w : world) (rid : bytes) : world :=
  mkWorld (w_ident w) (w_reg w) (w_trust_all w) (fun r d => if beq r rid then None else w_sess w r d)
    (w_pre w) (w_spk w) (w_ids w).
Definition apply_act (st : rstate) (a : act) : rstate :=
  match a with
  | AStore e => mkRs (apply_eff (rs_w st) e) (rs_pkeys st)
  | ADelete rid => mkRs (delete_all (rs_w st) rid) (rs_pkeys st)
  | AContact u k => mkRs (rs_w st) (fun v => if beq v u then Some k else rs_pkeys st v)
  | ACall _ => st
  end.
Definition apply_acts (st : rstate) (l : list act) : rstate := fold_left apply_act l st.

(* outcome plus what was done *)
Definition andthen {A B} (x : res A * list act) (k : A -> res B * list act) : res B * list act :=
  match x with
  | (Ok a, l) => let (r, l') := k a in (r, l ++ l')
  | (Err e, l) => (Err e, l)
  | (Panic, l) => (Panic, l)
  end.
Definition pure {A} (r : res A) : res A * list act := (r, []).

(* the world outside, for one message *)
Record outside := mkOutside {
  ou_fetch : attptr -> res bytes;               (* getAttachmentLocation, getAttachment and ReadAll *)
  ou_group : gctx2 -> res (option bytes);       (* groupsv2.HandleGroupsV2 *)
  ou_known : option bytes -> option bytes;      (* groupsv2.FindGroup *)
  ou_crayfish : envelope -> res (bytes * bytes * Z);  (* sender, base64 message, timestamp *)
  ou_contacts : res unit;                       (* WriteContactsToPath *)
  ou_reply : Z -> res unit;                     (* sendContactUpdate / sendGroupUpdate *)
  ou_verified : res unit }.                     (* GetAccessForSync and sendVerifiedMessage *)

Definition g_bytes (o : option bytes) : bytes := match o with Some b => b | None => [] end.
Definition g_num (o : option Z) : Z := match o with Some x => x | None => 0 end.

Section R.
Variable C : crypto.

(* handleSingleAttachment, /repo/attachments.go 97-126: both slicings of line 114 and of line 118 are bounds
   checked; a.Key is nil when absent *)
Definition handleSingleAttachment (ou : outside) (a : attptr) : res bytes :=
  let* b := ou_fetch ou a in
  let key := g_bytes (ap_key a) in
  let l := zlen b - 32 in
  if (zlen key <? 32) || (l <? 0) then Panic
  else
    let body := firstn (Z.to_nat l) b in
    if negb (Cbc.verifyMAC C (skipn 32 key) body (skipn (Z.to_nat l) b)) then Err EMac
    else aesDecrypt C (firstn 32 key) body.

(* handleAttachments, /repo/attachments.go 161-176 *)
Fixpoint handleAttachments (ou : outside) (l : list attptr) : res (list bytes) :=
  match l with
  | [] => Ok []
  | a :: t => let* x := handleSingleAttachment ou a in let* r := handleAttachments ou t in Ok (x :: r)
  end.

(* handleFlags, /repo/textsecure.go 495-514 *)
Definition handleFlags (ou : outside) (src : bytes) (dm : datamsg) : res Z * list act :=
  let f := g_num (d_flags dm) in
  if f =? 1 then
    match recID src with
    | Ok clean => (Ok 1, [ADelete clean; ADelete src])
    | Err e => (Err e, [])
    | Panic => (Panic, [])
    end
  else if f =? 4 then
    (* the map is changed before the file is written *)
    match ou_contacts ou with
    | Ok _ => (Ok 4, [AContact src (d_pkey dm)])
    | Err e => (Err e, [AContact src (d_pkey dm)])
    | Panic => (Panic, [AContact src (d_pkey dm)])
    end
  else (Ok 0, []).

(* handleDataMessage, /repo/handler.go 75-112; line 86 dereferences the timestamp *)
Definition handleDataMessage (ou : outside) (src uuid : bytes) (dm : datamsg) : res unit * list act :=
  andthen (handleFlags ou uuid dm) (fun flags =>
  andthen (pure (handleAttachments ou (d_atts dm))) (fun atts =>
  match d_ts dm with
  | None => (Panic, [])
  | Some ts =>
      andthen (pure (match d_gv2 dm with None => Ok None | Some g => ou_group ou g end)) (fun gr =>
      (Ok tt, [ACall (HMessage (mkMsg src uuid (g_bytes (d_body dm)) atts gr flags (g_num (d_expire dm)) (d_pkey dm)
                  ts (d_quote dm) (d_contact dm) (d_sticker dm) (d_reaction dm)))]))
  end)).

(* handleSyncSent, /repo/sync.go 86-135: the flags are handled for the destination named in the message; the
   contacts are dropped (contacts.go 150-161 returns nil) *)
Definition handleSyncSent (ou : outside) (s : sentmsg) (ts : Z) : res unit * list act :=
  match sn_msg s with
  | None => (Err EOther, [])
  | Some dm =>
      let dest := g_bytes (sn_e164 s) in
      andthen (handleFlags ou dest dm) (fun flags =>
      andthen (pure (handleAttachments ou (d_atts dm))) (fun atts =>
      match d_ts dm with
      | None => (Panic, [])
      | Some dts =>
          (Ok tt, [ACall (HSyncSent (mkMsg dest (g_bytes (sn_uuid s)) (g_bytes (d_body dm)) atts
                     (match d_gv2 dm with None => None | Some g => ou_known ou (gc_master g) end) flags
                     (g_num (d_expire dm)) (d_pkey dm) dts (d_quote dm) [] (d_sticker dm) (d_reaction dm)) ts)])
      end))
  end.

(* handleSyncRequest, /repo/sync.go 137-147: CONTACTS is 1, GROUPS is 2 *)
Definition handleSyncRequest (ou : outside) (ty : option Z) : res unit * list act :=
  let t := g_num ty in
  if (t =? 1) || (t =? 2) then (ou_reply ou t, [ACall (HSyncReply t)]) else (Ok tt, []).

(* handleSyncRead, /repo/sync.go 262-271 *)
Definition handleSyncRead (l : list readmsg) : res unit * list act :=
  (Ok tt, map (fun r => ACall (HSyncRead (g_bytes (rd_uuid r)) (g_num (rd_ts r)))) l).

(* handleSyncMessage, /repo/sync.go 18-84; who sent the message is not looked at *)
Definition handleSyncMessage (ou : outside) (ts : Z) (sm : syncmsg) : res unit * list act :=
  match sy_sent sm with
  | Some s => handleSyncSent ou s ts
  | None =>
      if sy_contacts sm then (Ok tt, []) else if sy_groups sm then (Ok tt, [])
      else match sy_request sm with
      | Some ty => handleSyncRequest ou ty
      | None =>
          match sy_read sm with
          | _ :: _ => handleSyncRead (sy_read sm)
          | [] => if sy_blocked sm then (Ok tt, [])
                  else match sy_verified sm with
                  | Some _ => (ou_verified ou, [ACall HVerifiedReply])
                  | None => (Ok tt, [])
                  end
          end
      end
  end.

(* handleCallMessage, /repo/handler.go 113-151: the text is "Call " and the kinds present *)
Definition t_call : bytes := [67; 97; 108; 108; 32].
Definition t_answer : bytes := [97; 110; 115; 119; 101; 114].
Definition t_offer : bytes := [111; 102; 102; 101; 114].
Definition t_hangup : bytes := [104; 97; 110; 103; 117; 112].
Definition t_busy : bytes := [98; 117; 115; 121].
Definition t_ring : bytes := [114; 105; 110; 103].
Definition if_b (b : bool) (t : bytes) : bytes := if b then t else [].
Definition call_text (c : callmsg) : bytes :=
  t_call ++ if_b (cl_answer c) t_answer ++ if_b (cl_offer c) t_offer ++ if_b (cl_hangup c) t_hangup
  ++ if_b (cl_busy c) t_busy ++ if_b (cl_legacy c) t_hangup ++ if_b (cl_ice c) t_ring.
Definition handleCallMessage (src uuid : bytes) (ts : Z) (c : callmsg) : res unit * list act :=
  (Ok tt, [ACall (HMessage (plain_msg src uuid (call_text c) ts))]).

(* handleReceiptMessage, /repo/handler.go 54-74: panics without timestamps or type; DELIVERY 0, READ 1 *)
Definition t_sent : bytes := [115; 101; 110; 116; 82; 101; 99; 101; 105; 112; 116; 77; 101; 115; 115; 97; 103; 101].
Definition t_read : bytes := [114; 101; 97; 100; 82; 101; 99; 101; 105; 112; 116; 77; 101; 115; 115; 97; 103; 101].
Definition t_delivery : bytes := [100; 101; 108; 105; 118; 101; 114; 121; 82; 101; 99; 101; 105; 112; 116; 77; 101; 115; 115; 97; 103; 101].
Definition handleReceiptMessage (src uuid : bytes) (r : receiptmsg) : res unit * list act :=
  match rc_ts r, rc_type r with
  | [], _ => (Panic, [])
  | _, None => (Panic, [])
  | ts :: _, Some ty =>
      (Ok tt, [ACall (HReceiptMessage (plain_msg src uuid
          (if ty =? 1 then t_read else if ty =? 0 then t_delivery else t_sent) ts))])
  end.

(* handleTypingMessage, /repo/handler.go 40-53 *)
Definition t_typing : bytes := [116; 121; 112; 105; 110; 103; 77; 101; 115; 115; 97; 103; 101].
Definition handleTypingMessage (src uuid : bytes) (ts : Z) : res unit * list act :=
  (Ok tt, [ACall (HTyping (plain_msg src uuid t_typing ts))]).

(* handleMessage, /repo/handler.go 10-38 *)
Definition handleMessage (ou : outside) (src uuid : bytes) (ts : Z) (b : bytes) : res unit * list act :=
  match unmarshal_content b with
  | None => (Err EProto, [])
  | Some c =>
      match c_data c, c_sync c, c_call c, c_receipt c with
      | Some dm, _, _, _ => handleDataMessage ou src uuid dm
      | None, Some sm, _, _ => handleSyncMessage ou ts sm
      | None, None, Some cm, _ => handleCallMessage src uuid ts cm
      | None, None, None, Some rm => handleReceiptMessage src uuid rm
      | None, None, None, None => if c_typing c then handleTypingMessage src uuid ts else (Ok tt, [])
      end
  end.

(* the two session calls, with their writes as acts *)
Definition stored {A} (x : res A * list eff) : res A * list act := (fst x, map AStore (snd x)).
Definition deliver (ou : outside) (e : envelope) (b : bytes) : res unit * list act :=
  handleMessage ou (g_bytes (e_source e)) (g_bytes (e_source e)) (g_num (e_sts e)) (stripPadding b).

(* handleReceivedMessage, /repo/textsecure.go 565-673. The second decryption of a CIPHERTEXT (lines 597-608)
   assigns a shadowed error, so the message is dropped with the first error even when it succeeds. *)
Definition handle_cipher (ou : outside) (st : rstate) (rnd rnd2 : nat -> bytes) (e : envelope) : res unit * list act :=
  let rid := g_bytes (e_source e) in
  let dev := g_num (e_device e) in
  match e_content e with
  | None => (Err EOther, [])
  | Some msg =>
      match LoadWhisperMessage msg with
      | Err x => (Err x, [])
      | Panic => (Panic, [])
      | Ok wm =>
          match stored (SessionDecryptWhisperMessage C (rs_w st) rid dev wm rnd) with
          | (Ok b, l) => let (r, l') := deliver ou e b in (r, l ++ l')
          | (Err EDuplicate, l) => (Ok tt, l)
          | (Err EInvalidMessage, l) =>
              let clean := match recID rid with Ok c => c | _ => rid end in
              let (r2, l2) := stored (SessionDecryptWhisperMessage C (rs_w (apply_acts st l)) clean dev wm rnd2) in
              match r2 with
              | Err EDuplicate => (Ok tt, l ++ l2)
              | Panic => (Panic, l ++ l2)
              | _ => (Err EInvalidMessage, l ++ l2)
              end
          | (Err x, l) => (Err x, l)
          | (Panic, l) => (Panic, l)
          end
      end
  end.
Definition handle_prekey (ou : outside) (st : rstate) (rnd : nat -> bytes) (e : envelope) : res unit * list act :=
  match LoadPreKeyWhisperMessage (g_bytes (e_content e)) with
  | Err x => (Err x, [])
  | Panic => (Panic, [])
  | Ok pm =>
      match stored (SessionDecryptPreKeyWhisperMessage C (rs_w st) (g_bytes (e_source e)) (g_num (e_device e)) pm rnd) with
      | (Ok b, l) => let (r, l') := deliver ou e b in (r, l ++ l')
      | (Err EDuplicate, l) | (Err EPreKeyNotFound, l) | (Err EInvalidMessage, l) => (Ok tt, l)
      | (Err x, l) => (Err x, l)
      | (Panic, l) => (Panic, l)
      end
  end.
Definition handle_unidentified (ou : outside) (e : envelope) : res unit * list act :=
  match e_dest e with
  | None => (Panic, [])
  | Some _ =>
      andthen (pure (ou_crayfish ou e)) (fun '(sender, text, ts) =>
      andthen (pure (dec64 text)) (fun content =>
      match content with
      | [] => (Err EOther, [])
      | _ :: _ => handleMessage ou [] sender (ts mod 2 ^ 64) content
      end))
  end.
(* handleReceipt, /repo/textsecure.go 470-474 *)
Definition handleReceipt (e : envelope) : list act :=
  [ACall (HReceipt (g_bytes (e_source e)) (g_num (e_device e)) (g_num (e_ts e)))].
Definition handleReceivedMessage (ou : outside) (st : rstate) (rnd rnd2 : nat -> bytes) (env : option envelope)
    : res unit * list act :=
  match env with
  | None => (Panic, [])
  | Some e =>
      match e_type e with
      | None => (Panic, [])
      | Some t =>
          if t =? 5 then (Ok tt, handleReceipt e)
          else if t =? 1 then handle_cipher ou st rnd rnd2 e
          else if t =? 3 then handle_prekey ou st rnd e
          else if t =? 6 then handle_unidentified ou e
          else (Err EOther, [])
      end
  end.

(* decryptReceivedMessage, /repo/textsecure.go 529-554; sk is registration.SignalingKey *)
Definition decryptReceivedMessage (sk msg : bytes) : res bytes :=
  let macpos := zlen msg - 10 in
  if (macpos <? 0) || (zlen sk <? 32) then Panic
  else
    let body := firstn (Z.to_nat macpos) msg in
    let tmac := skipn (Z.to_nat macpos) msg in
    if negb (beq (ComputeTruncatedMAC C body (skipn 32 sk) 10) tmac) then Ok msg
    else if macpos <? 1 then Panic
    else Decrypt C (firstn 32 sk) (skipn 1 body).

(* one frame of StartListening, /repo/websocket.go 170-215 *)
Record frame := mkFrame { fr_bytes : bytes; fr_out : outside; fr_rnd : nat -> bytes; fr_rnd2 : nat -> bytes }.
Definition handle_body (sk : bytes) (st : rstate) (f : frame) (m : bytes) : res unit * list act :=
  match m with
  | [] => (Ok tt, [])
  | _ :: _ =>
      match decryptReceivedMessage sk m with
      | Panic => (Panic, [])
      | Err x => (Err x, [])
      | Ok plaintext => handleReceivedMessage (fr_out f) st (fr_rnd f) (fr_rnd2 f) (createEnvelope plaintext)
      end
  end.

(* what the loop does, in order; sending an acknowledgement hands it to the writer goroutine, in order *)
Inductive trace : Type := TAct (a : act) | TAck (id : Z).
Inductive ended : Type := Listening | Stopped (* StartListening returned *) | Crashed.
Definition request_id (r : option wsrequest) : Z := match r with Some q => g_num (wr_id q) | None => 0 end.
Definition request_body (r : option wsrequest) : bytes := match r with Some q => g_bytes (wr_body q) | None => [] end.
Fixpoint listen (sk : bytes) (st : rstate) (fs : list frame) : list trace * rstate * ended :=
  match fs with
  | [] => ([], st, Listening)
  | f :: t =>
      match unmarshal_ws (fr_bytes f) with
      | None => ([], st, Stopped)
      | Some r =>
          match handle_body sk st f (request_body r) with
          | (Panic, l) => (map TAct l, apply_acts st l, Crashed)
          | (_, l) =>
              let '(tr, st', e) := listen sk (apply_acts st l) t in
              (map TAct l ++ TAck (request_id r) :: tr, st', e)
          end
      end
  end.
End R.
