(* What the client sends because of a message it has received: /repo/sync.go 18-84, 137-260 and
   /repo/sender.go 67-131. Receiving.v has only the outcome of these calls (ou_reply, ou_verified); here are the
   requests they put on the network. The clock, the random key and vector of an upload, the answers of the
   servers, the contacts that GetRegisteredContacts finds (Contacts.v) and the groups are arguments. *)
From Coq Require Import ZArith List Lia Bool.
From Verif Require Import Bytes Res Wire Crypto Cbc Gcm Messages Session Builder RecordCodec Content Encodings Sending Receiving
  Attachments Access.
Import ListNotations.
Open Scope Z_scope.

(* "application/octet-stream" *)
Definition octet_stream : bytes :=
  [97; 112; 112; 108; 105; 99; 97; 116; 105; 111; 110; 47; 111; 99; 116; 101; 116; 45; 115; 116; 114; 101; 97; 109].
(* the AttachmentPointer of sync.go 198-207, 246-255 *)
Definition blob_ptr (p : pointer) : attptr :=
  mkAtt (Some (inr (pt_cdnkey p))) (Some (pt_ct p)) (Some (pt_keys p)) (Some (pt_size p)) (Some (pt_digest p)) None None (Some (pt_cdn p)).
(* proto.Marshal of the content with SyncMessage.Contacts (2) or SyncMessage.Groups (3), whose Blob is field 1 *)
Definition marshal_blob (kind : Z) (p : pointer) : bytes :=
  marshal [(2, f_msg [(kind, f_msg [(1, f_msg (att_slots (blob_ptr p)))])])].

(* the user's side *)
Record own := mkOwn {
  ow_self : bytes;                 (* config.ConfigFile.UUID or Tel, sender.go 69-72 *)
  ow_pkey : bytes;                 (* config.ConfigFile.ProfileKey *)
  ow_contacts : res (list contact);  (* GetRegisteredContacts *)
  ow_groups : list v1group;        (* groups *)
  ow_up : upserver; ow_keys : bytes; ow_iv : bytes;   (* the upload *)
  ow_now : Z }.

Section Answer.
Variable C : crypto.
Variable G : gcm.
Variable sha256 : bytes -> bytes.
Variable V : server.
Variable rnd : nat -> bytes.
Notation cstate := (cstate V).

(* sendNullMessage, /repo/sender.go 108-131 *)
Definition sendNullMessage (fuel : nat) (dest padding : bytes) (now : Z) (st : cstate) : option (res Z) * cstate :=
  match buildAndSend C V rnd fuel dest (padMessage (marshal_null padding)) now (default_devs V st dest) with
  | (None, st') => (None, st')
  | (Some (Err e), st') => (Some (Err e), st')
  | (Some Panic, st') => (Some Panic, st')
  | (Some (Ok (_, t)), st') => (Some (Ok t), st')
  end.
(* sendVerifiedMessage, /repo/sender.go 90-99; the access key is not used *)
Definition sendVerifiedMessage (fuel : nat) (dest : bytes) (now : Z) (st : cstate) : option (res unit) * cstate :=
  match sendNullMessage fuel dest [] now st with
  | (None, st') => (None, st')
  | (Some (Err e), st') => (Some (Err e), st')
  | (Some Panic, st') => (Some Panic, st')
  | (Some (Ok _), st') => (Some (Ok tt), st')
  end.

(* the end of sendContactUpdate and sendGroupUpdate, /repo/sync.go 191-211, 239-259, with sendSyncMessage, which
   dereferences the nil response when the message could not be sent (sender.go 82-83) *)
Definition sendBlob (fuel : nat) (o : own) (kind : Z) (blob : bytes) (st : cstate) : option (res unit) * cstate :=
  match uploadAttachmentV3 C sha256 (ow_up o) (ow_keys o) (ow_iv o) blob octet_stream false with
  | Err e => (Some (Err e), st)
  | Panic => (Some Panic, st)
  | Ok (p, _) =>
      match buildAndSend C V rnd fuel (ow_self o) (padMessage (marshal_blob kind p)) (ow_now o) (default_devs V st (ow_self o)) with
      | (None, st') => (None, st')
      | (Some (Ok _), st') => (Some (Ok tt), st')
      | (Some (Err _), st') => (Some Panic, st')
      | (Some Panic, st') => (Some Panic, st')
      end
  end.
(* sendContactUpdate, /repo/sync.go 155-212 *)
Definition sendContactUpdate (fuel : nat) (o : own) (st : cstate) : option (res unit) * cstate :=
  match ow_contacts o with
  | Err e => (Some (Err e), st)
  | Panic => (Some Panic, st)
  | Ok cs => match contact_blob cs with
             | Ok b => sendBlob fuel o 2 b st
             | Err e => (Some (Err e), st)
             | Panic => (Some Panic, st)
             end
  end.
(* sendGroupUpdate, /repo/sync.go 215-260 *)
Definition sendGroupUpdate (fuel : nat) (o : own) (st : cstate) : option (res unit) * cstate :=
  match group_blob (ow_groups o) with
  | Ok b => sendBlob fuel o 3 b st
  | Err e => (Some (Err e), st)
  | Panic => (Some Panic, st)
  end.

(* handleSyncRequest, /repo/sync.go 137-147 *)
Definition answerRequest (fuel : nat) (o : own) (ty : option Z) (st : cstate) : option (res unit) * cstate :=
  if g_num ty =? 1 then sendContactUpdate fuel o st
  else if g_num ty =? 2 then sendGroupUpdate fuel o st
  else (Some (Ok tt), st).
(* the branch of handleSyncMessage for Verified, /repo/sync.go 38-44, with GetAccessForSync
   (/repo/unidentifiedAccess/unidentifiedAccess.go 69-79) *)
Definition answerVerified (fuel : nat) (o : own) (dest : option bytes) (st : cstate) : option (res unit) * cstate :=
  match DeriveAccessKeyFrom G (ow_pkey o) with
  | Ok _ => sendVerifiedMessage fuel (g_bytes dest) (ow_now o) st
  | Err e => (Some (Err e), st)
  | Panic => (Some Panic, st)
  end.
(* handleSyncMessage, /repo/sync.go 18-84: what is sent *)
Definition answerSync (fuel : nat) (o : own) (sm : syncmsg) (st : cstate) : option (res unit) * cstate :=
  match sy_sent sm with
  | Some _ => (Some (Ok tt), st)
  | None =>
      if sy_contacts sm then (Some (Ok tt), st) else if sy_groups sm then (Some (Ok tt), st)
      else match sy_request sm with
      | Some ty => answerRequest fuel o ty st
      | None =>
          match sy_read sm with
          | _ :: _ => (Some (Ok tt), st)
          | [] => if sy_blocked sm then (Some (Ok tt), st)
                  else match sy_verified sm with
                  | Some dest => answerVerified fuel o dest st
                  | None => (Some (Ok tt), st)
                  end
          end
      end
  end.
(* handleMessage, /repo/handler.go 10-38: what is sent because of a content *)
Definition answerContent (fuel : nat) (o : own) (body : bytes) (st : cstate) : option (res unit) * cstate :=
  match unmarshal_content body with
  | None => (Some (Ok tt), st)
  | Some c =>
      match c_data c, c_sync c with
      | None, Some sm => answerSync fuel o sm st
      | _, _ => (Some (Ok tt), st)
      end
  end.

(* the content that an envelope is found to hold, /repo/textsecure.go 565-673 *)
Definition content_of (ou : outside) (w : world) (rnd1 : nat -> bytes) (e : envelope) : option bytes :=
  match e_type e with
  | None => None
  | Some t =>
      if t =? 1 then
        match LoadWhisperMessage (g_bytes (e_content e)) with
        | Ok wm => match e_content e, fst (SessionDecryptWhisperMessage C w (g_bytes (e_source e)) (g_num (e_device e)) wm rnd1) with
                   | Some _, Ok b => Some (stripPadding b) | _, _ => None end
        | _ => None
        end
      else if t =? 3 then
        match LoadPreKeyWhisperMessage (g_bytes (e_content e)) with
        | Ok pm => match fst (SessionDecryptPreKeyWhisperMessage C w (g_bytes (e_source e)) (g_num (e_device e)) pm rnd1) with
                   | Ok b => Some (stripPadding b) | _ => None end
        | _ => None
        end
      else if t =? 6 then
        match e_dest e, ou_crayfish ou e with
        | Some _, Ok (_, text, _) => match dec64 text with Ok (c :: l) => Some (c :: l) | _ => None end
        | _, _ => None
        end
      else None
  end.
(* handleReceivedMessage (/repo/textsecure.go 565-673): the stores after it, and then what is sent. The acts come
   first: a content that is answered has no other act than that of the decryption. *)
Definition react (fuel : nat) (o : own) (ou : outside) (rnd1 rnd2 : nat -> bytes) (pkeys : bytes -> option (option bytes))
    (e : envelope) (st : cstate) : option (res unit) * cstate :=
  let st1 := set_w V st (rs_w (apply_acts (mkRs (cs_w V st) pkeys) (snd (handleReceivedMessage C ou (mkRs (cs_w V st) pkeys) rnd1 rnd2 (Some e))))) in
  match content_of ou (cs_w V st) rnd1 e with
  | Some body => answerContent fuel o body st1
  | None => (Some (Ok tt), st1)
  end.
End Answer.
