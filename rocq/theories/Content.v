(* The protobuf messages exchanged with peers and with the server: the parts of
   /repo/protobuf/SignalService.proto and /repo/protobuf/WebSocketResources.proto that the code reads or
   writes (both proto2: presence is tracked, and an enum value outside the enum counts as absent).
   Submessages the code only passes on (quote, contact, sticker, reaction) are kept as field lists. *)
From Coq Require Import ZArith List Lia Bool.
From Verif Require Import Bytes Res Wire Messages Session RecordCodec.
Import ListNotations.
Open Scope Z_scope.

(* proto2 fields with presence *)
Definition o_varint (v : option Z) : list wval := match v with Some x => [WVarint x] | None => [] end.
Definition o_len (v : option bytes) : list wval := match v with Some x => [WLen x] | None => [] end.
Definition o_msg {A} (enc : A -> slots) (v : option A) : list wval :=
  match v with Some x => f_msg (enc x) | None => [] end.

Definition q_u32 (n : Z) (fs : list wfield) : option Z := option_map to_u32 (get_varint n fs).
Definition q_u64 (n : Z) (fs : list wfield) : option Z := get_varint n fs.

(* closed enum: the last occurrence with a known value *)
Fixpoint get_enum (n : Z) (known : list Z) (fs : list wfield) : option Z :=
  match fs with
  | [] => None
  | (m, v) :: t =>
      match get_enum n known t with
      | Some e => Some e
      | None =>
          match v with
          | WVarint x => if (m =? n) && existsb (Z.eqb (to_i32 x)) known then Some (to_i32 x) else None
          | _ => None
          end
      end
  end.

(* repeated uint64, packed or not *)
Fixpoint unpack (fuel : nat) (bs : bytes) : option (list Z) :=
  match bs with
  | [] => Some []
  | _ :: _ => match fuel with
              | O => None
              | S f => match unvarint bs with
                       | Some (v, r) => match unpack f r with Some l => Some (v :: l) | None => None end
                       | None => None
                       end
              end
  end.
Fixpoint g_rep_u64 (n : Z) (fs : list wfield) : option (list Z) :=
  match fs with
  | [] => Some []
  | (m, v) :: t =>
      match g_rep_u64 n t with
      | None => None
      | Some r =>
          if m =? n then
            match v with
            | WVarint x => Some (x :: r)
            | WLen b => match unpack (length b) b with Some l => Some (l ++ r) | None => None end
            | _ => Some r
            end
          else Some r
      end
  end.

(* ---- AttachmentPointer ---- *)
Record attptr := mkAtt { ap_id : option (Z + bytes);      (* oneof cdnId = 1 | cdnKey = 15 *)
  ap_type : option bytes; ap_key : option bytes; ap_size : option Z; ap_digest : option bytes;
  ap_name : option bytes; ap_flags : option Z; ap_cdn : option Z }.
Definition att_slots (a : attptr) : slots :=
  [(1, match ap_id a with Some (inl i) => [WI64 i] | _ => [] end); (2, o_len (ap_type a)); (3, o_len (ap_key a));
   (4, o_varint (ap_size a)); (6, o_len (ap_digest a)); (7, o_len (ap_name a)); (8, o_varint (ap_flags a));
   (14, o_varint (ap_cdn a)); (15, match ap_id a with Some (inr k) => [WLen k] | _ => [] end)].
Fixpoint get_att_id (fs : list wfield) : option (Z + bytes) :=
  match fs with
  | [] => None
  | (m, v) :: t =>
      match get_att_id t with
      | Some x => Some x
      | None => match v with
                | WI64 i => if m =? 1 then Some (inl i) else None
                | WLen k => if m =? 15 then Some (inr k) else None
                | _ => None
                end
      end
  end.
Definition att_dec (fs : list wfield) : option attptr :=
  Some (mkAtt (get_att_id fs) (get_len 2 fs) (get_len 3 fs) (q_u32 4 fs) (get_len 6 fs) (get_len 7 fs) (q_u32 8 fs) (q_u32 14 fs)).

(* ---- GroupContextV2 ---- *)
Record gctx2 := mkGctx2 { gc_master : option bytes; gc_rev : option Z; gc_change : option bytes }.
Definition gctx2_slots (g : gctx2) : slots :=
  [(1, o_len (gc_master g)); (2, o_varint (gc_rev g)); (3, o_len (gc_change g))].
Definition gctx2_dec (fs : list wfield) : option gctx2 := Some (mkGctx2 (get_len 1 fs) (q_u32 2 fs) (get_len 3 fs)).

(* ---- DataMessage ---- *)
Record datamsg := mkData { d_body : option bytes; d_atts : list attptr; d_flags : option Z; d_expire : option Z;
  d_pkey : option bytes; d_ts : option Z; d_gv2 : option gctx2;
  d_quote : option (list wfield); d_contact : list (list wfield); d_sticker : option (list wfield);
  d_reaction : option (list wfield) }.
(* the fields createMessage sets *)
Definition data_slots (d : datamsg) : slots :=
  [(1, o_len (d_body d)); (2, flat_map (fun a => f_msg (att_slots a)) (d_atts d)); (4, o_varint (d_flags d));
   (5, o_varint (d_expire d)); (6, o_len (d_pkey d)); (7, o_varint (d_ts d)); (15, o_msg gctx2_slots (d_gv2 d))].
Definition data_dec (fs : list wfield) : option datamsg :=
  match g_rep 2 att_dec fs, g_msg 15 gctx2_dec fs, g_msg 8 (@Some _) fs, g_rep 9 (@Some _) fs, g_msg 11 (@Some _) fs,
        g_msg 16 (@Some _) fs with
  | Some atts, Some gv2, Some q, Some c, Some s, Some r =>
      Some (mkData (get_len 1 fs) atts (q_u32 4 fs) (q_u32 5 fs) (get_len 6 fs) (q_u64 7 fs) gv2 q c s r)
  | _, _, _, _, _, _ => None
  end.

(* ---- SyncMessage ---- *)
Record sentmsg := mkSent { sn_e164 : option bytes; sn_uuid : option bytes; sn_ts : option Z; sn_msg : option datamsg }.
Definition sent_slots (s : sentmsg) : slots :=
  [(1, o_len (sn_e164 s)); (2, o_varint (sn_ts s)); (3, o_msg data_slots (sn_msg s)); (7, o_len (sn_uuid s))].
Definition sent_dec (fs : list wfield) : option sentmsg :=
  match g_msg 3 data_dec fs with
  | Some m => Some (mkSent (get_len 1 fs) (get_len 7 fs) (q_u64 2 fs) m)
  | None => None
  end.
Record readmsg := mkRead { rd_uuid : option bytes; rd_ts : option Z }.
Definition read_dec (fs : list wfield) : option readmsg := Some (mkRead (get_len 3 fs) (q_u64 2 fs)).
(* The remaining kinds are only tested for presence: contacts 2, groups 3, blocked 6, verified 7, ... The request
   type is an enum with values 0 to 6. *)
Record syncmsg := mkSync { sy_sent : option sentmsg; sy_contacts : bool; sy_groups : bool;
  sy_request : option (option Z); sy_read : list readmsg; sy_blocked : bool; sy_verified : option (option bytes) }.
Definition present (n : Z) (fs : list wfield) : option bool :=
  match g_msg n (@Some _) fs with Some (Some _) => Some true | Some None => Some false | None => None end.
Definition sync_dec (fs : list wfield) : option syncmsg :=
  match g_msg 1 sent_dec fs, present 2 fs, present 3 fs,
        g_msg 4 (fun f => Some (get_enum 1 [0; 1; 2; 3; 4; 5; 6] f)) fs, g_rep 5 read_dec fs, present 6 fs,
        g_msg 7 (fun f => Some (get_len 5 f)) fs with
  | Some s, Some c, Some g, Some q, Some r, Some b, Some v => Some (mkSync s c g q r b v)
  | _, _, _, _, _, _, _ => None
  end.
(* the part sendMessage sets *)
Definition sync_slots (s : syncmsg) : slots := [(1, o_msg sent_slots (sy_sent s))].

(* ---- CallMessage, ReceiptMessage, TypingMessage, NullMessage ---- *)
Record callmsg := mkCall { cl_offer : bool; cl_answer : bool; cl_ice : bool; cl_legacy : bool; cl_busy : bool;
  cl_hangup : bool }.
Definition call_dec (fs : list wfield) : option callmsg :=
  match present 1 fs, present 2 fs, g_rep 3 (@Some _) fs, present 4 fs, present 5 fs, present 7 fs with
  | Some o, Some a, Some i, Some l, Some b, Some h =>
      Some (mkCall o a (match i with [] => false | _ => true end) l b h)
  | _, _, _, _, _, _ => None
  end.
Record receiptmsg := mkReceipt { rc_type : option Z; rc_ts : list Z }.
Definition receipt_dec (fs : list wfield) : option receiptmsg :=
  match g_rep_u64 2 fs with Some l => Some (mkReceipt (get_enum 1 [0; 1; 2] fs) l) | None => None end.

(* ---- Content ---- *)
Record content := mkContent { c_data : option datamsg; c_sync : option syncmsg; c_call : option callmsg;
  c_null : bool; c_receipt : option receiptmsg; c_typing : bool }.
Definition content_dec (fs : list wfield) : option content :=
  match g_msg 1 data_dec fs, g_msg 2 sync_dec fs, g_msg 3 call_dec fs, present 4 fs, g_msg 5 receipt_dec fs, present 6 fs with
  | Some d, Some s, Some c, Some n, Some r, Some t => Some (mkContent d s c n r t)
  | _, _, _, _, _, _ => None
  end.
(* proto.Unmarshal(b, content) *)
Definition unmarshal_content (b : bytes) : option content :=
  match parse b with Some fs => content_dec fs | None => None end.
(* proto.Marshal(&Content{DataMessage: dm}), /repo/sender.go 22-25; with SyncMessage, 74-78; with
   NullMessage, 114-117 *)
Definition marshal_data (d : datamsg) : bytes := marshal [(1, f_msg (data_slots d))].
Definition marshal_sync (s : syncmsg) : bytes := marshal [(2, f_msg (sync_slots s))].
Definition marshal_null (padding : bytes) : bytes := marshal [(4, f_msg [(1, [WLen padding])])].

(* ---- Envelope ---- *)
Record envelope := mkEnv { e_type : option Z; e_source : option bytes; e_device : option Z; e_dest : option bytes;
  e_ts : option Z; e_content : option bytes; e_sts : option Z }.
Definition envelope_dec (fs : list wfield) : envelope :=
  mkEnv (get_enum 1 [0; 1; 2; 3; 5; 6; 8] fs) (get_len 11 fs) (q_u32 7 fs) (get_len 13 fs) (q_u64 5 fs)
        (get_len 8 fs) (q_u64 10 fs).
(* createEnvelope, /repo/textsecure.go 555-562: the envelope is nil when unmarshalling fails *)
Definition createEnvelope (b : bytes) : option envelope := option_map envelope_dec (parse b).
Definition envelope_slots (e : envelope) : slots :=
  [(1, o_varint (e_type e)); (5, o_varint (e_ts e)); (7, o_varint (e_device e)); (8, o_len (e_content e));
   (10, o_varint (e_sts e)); (11, o_len (e_source e)); (13, o_len (e_dest e))].

(* ---- WebSocketMessage: only the request part is read ---- *)
Record wsrequest := mkWsReq { wr_path : option bytes; wr_body : option bytes; wr_id : option Z }.
Definition wsreq_dec (fs : list wfield) : option wsrequest := Some (mkWsReq (get_len 2 fs) (get_len 3 fs) (q_u64 4 fs)).
(* proto.Unmarshal(bmsg, wsm): outer None is an error; the response part must parse too *)
Definition unmarshal_ws (b : bytes) : option (option wsrequest) :=
  match parse b with
  | None => None
  | Some fs => match g_msg 2 wsreq_dec fs, present 3 fs with
               | Some r, Some _ => Some r
               | _, _ => None
               end
  end.
(* sendAck, /repo/websocket.go 78-98: type RESPONSE = 2, id, status 200, "OK" *)
Definition ack_bytes (id : Z) : bytes :=
  marshal [(1, [WVarint 2]); (3, f_msg [(1, [WVarint id]); (2, [WVarint 200]); (3, [WLen [79; 75]])])].
