(* How sessions and prekeys are written to files: SessionRecord.Serialize and LoadSessionRecord
   (/repo/axolotl/session.go 267-294), PreKeyRecord and SignedPreKeyRecord (/repo/axolotl/prekeys.go
   15-110), through the schema /repo/axolotl/protobuf/LocalStorageProtocol.proto (proto3). *)
From Coq Require Import ZArith List Lia Bool.
From Verif Require Import Bytes Res Wire Messages Session.
Import ListNotations.
Open Scope Z_scope.

(* A message to be marshalled: for each field, in the order of the numbers, its values. *)
Definition slots : Type := list (Z * list wval).
Definition flat (s : slots) : list wfield := flat_map (fun p => map (pair (fst p)) (snd p)) s.
(* proto.Marshal *)
Definition marshal (s : slots) : bytes := encode (flat s).

(* proto3: a scalar field that is zero and a bytes field that is empty are omitted *)
Definition f_u32 (v : Z) : list wval := if v =? 0 then [] else [WVarint v].
Definition f_i32 (v : Z) : list wval := if v =? 0 then [] else [WVarint (of_i32 v)].
Definition f_f64 (v : Z) : list wval := if v =? 0 then [] else [WI64 v].
Definition f_bool (v : bool) : list wval := if v then [WVarint 1] else [].
Definition f_bytes (b : bytes) : list wval := match b with [] => [] | _ => [WLen b] end.
Definition f_msg (s : slots) : list wval := [WLen (marshal s)].

(* getters of the unmarshalled message *)
Definition g_u32 (n : Z) (fs : list wfield) : Z := match get_varint n fs with Some v => to_u32 v | None => 0 end.
Definition g_i32 (n : Z) (fs : list wfield) : Z := match get_varint n fs with Some v => to_i32 v | None => 0 end.
Definition g_f64 (n : Z) (fs : list wfield) : Z := match get_i64 n fs with Some v => v | None => 0 end.
Definition g_bool (n : Z) (fs : list wfield) : bool := match get_varint n fs with Some v => negb (v =? 0) | None => false end.
Definition g_bytes (n : Z) (fs : list wfield) : bytes := match get_len n fs with Some b => b | None => [] end.
(* an optional submessage: outer None is a failure of proto.Unmarshal *)
Definition g_msg {A} (n : Z) (dec : list wfield -> option A) (fs : list wfield) : option (option A) :=
  match get_sub n fs with
  | None => Some None
  | Some None => None
  | Some (Some f) => match dec f with Some a => Some (Some a) | None => None end
  end.
Fixpoint all_some {A} (l : list (option A)) : option (list A) :=
  match l with
  | [] => Some []
  | Some a :: t => match all_some t with Some r => Some (a :: r) | None => None end
  | None :: _ => None
  end.
Definition g_rep {A} (n : Z) (dec : list wfield -> option A) (fs : list wfield) : option (list A) :=
  all_some (map (fun b => match parse b with Some f => dec f | None => None end) (get_all n fs)).

(* Chain.ChainKey *)
Definition ck_slots (c : ckey) : slots := [(1, f_u32 (ck_index c)); (2, f_bytes (ck_key c))].
Definition ck_dec (fs : list wfield) : option ckey := Some (mkCk (g_u32 1 fs) (g_bytes 2 fs)).
(* Chain.MessageKey *)
Definition mk_slots (k : mkey) : slots :=
  [(1, f_u32 (mk_index k)); (2, f_bytes (mk_cipher k)); (3, f_bytes (mk_mac k)); (4, f_bytes (mk_iv k))].
Definition mk_dec (fs : list wfield) : option mkey :=
  Some (mkMk (g_u32 1 fs) (g_bytes 2 fs) (g_bytes 3 fs) (g_bytes 4 fs)).
(* Chain *)
Definition chain_slots (c : chain) : slots :=
  [(1, f_bytes (ch_rpub c)); (2, f_bytes (ch_rpriv c));
   (3, match ch_ck c with Some k => f_msg (ck_slots k) | None => [] end);
   (4, flat_map (fun k => f_msg (mk_slots k)) (ch_mks c))].
Definition chain_dec (fs : list wfield) : option chain :=
  match g_msg 3 ck_dec fs, g_rep 4 mk_dec fs with
  | Some ck, Some mks => Some (mkChain (g_bytes 1 fs) (g_bytes 2 fs) ck mks)
  | _, _ => None
  end.
(* PendingPreKey *)
Definition pending_slots (p : pending) : slots :=
  [(1, f_u32 (pp_pkid p)); (2, f_bytes (pp_base p)); (3, f_i32 (pp_spkid p))].
Definition pending_dec (fs : list wfield) : option pending :=
  Some (mkPending (g_u32 1 fs) (g_i32 3 fs) (g_bytes 2 fs)).
(* SessionStructure *)
Definition ss_slots (s : sstate) : slots :=
  [(1, f_u32 (s_version s)); (2, f_bytes (s_local s)); (3, f_bytes (s_remote s)); (4, f_bytes (s_root s));
   (5, f_u32 (s_prev s)); (6, match s_sender s with Some c => f_msg (chain_slots c) | None => [] end);
   (7, flat_map (fun c => f_msg (chain_slots c)) (s_recv s));
   (9, match s_pending s with Some p => f_msg (pending_slots p) | None => [] end);
   (10, f_u32 (s_rreg s)); (11, f_u32 (s_lreg s)); (12, f_bool (s_refresh s)); (13, f_bytes (s_base s))].
Definition ss_dec (fs : list wfield) : option sstate :=
  match g_msg 6 chain_dec fs, g_rep 7 chain_dec fs, g_msg 9 pending_dec fs with
  | Some sc, Some rc, Some pp =>
      Some (mkSs (g_u32 1 fs) (g_bytes 2 fs) (g_bytes 3 fs) (g_bytes 4 fs) (g_u32 5 fs) sc rc pp
              (g_u32 10 fs) (g_u32 11 fs) (g_bool 12 fs) (g_bytes 13 fs))
  | _, _, _ => None
  end.
(* RecordStructure; session.go 282-294 Serialize *)
Definition record_slots (r : srecord) : slots :=
  [(1, f_msg (ss_slots (r_cur r))); (2, flat_map (fun s => f_msg (ss_slots s)) (r_prevs r))].
Definition Serialize (r : srecord) : bytes := marshal (record_slots r).
(* session.go 267-280. A record without a current session holds a nil *SessionStructure, whose getters
   give the values of the empty one; this is what is used here. (Its setters would panic.) *)
Definition LoadSessionRecord (b : bytes) : res srecord :=
  match parse b with
  | None => Err EProto
  | Some fs =>
      match g_msg 1 ss_dec fs, g_rep 2 ss_dec fs with
      | Some cur, Some prevs => Ok (mkSr (match cur with Some s => s | None => empty_ss end) prevs false)
      | _, _ => Err EProto
      end
  end.

(* prekeys.go 15-53: the record of a prekey, its LoadPreKeyRecord and Serialize *)
Record prekey_rec : Type := mkPkr { pkr_id : Z; pkr_pub : bytes; pkr_priv : bytes }.
Definition pkr_slots (r : prekey_rec) : slots :=
  [(1, f_u32 (pkr_id r)); (2, f_bytes (pkr_pub r)); (3, f_bytes (pkr_priv r))].
Definition pkr_serialize (r : prekey_rec) : bytes := marshal (pkr_slots r).
Definition LoadPreKeyRecord (b : bytes) : res prekey_rec :=
  match parse b with
  | None => Err EProto
  | Some fs => Ok (mkPkr (g_u32 1 fs) (g_bytes 2 fs) (g_bytes 3 fs))
  end.
(* prekeys.go 73-110: the same for a signed prekey *)
Record spk_rec : Type := mkSpkr { spkr_id : Z; spkr_pub : bytes; spkr_priv : bytes; spkr_sig : bytes; spkr_time : Z }.
Definition spkr_slots (r : spk_rec) : slots :=
  [(1, f_u32 (spkr_id r)); (2, f_bytes (spkr_pub r)); (3, f_bytes (spkr_priv r)); (4, f_bytes (spkr_sig r));
   (5, f_f64 (spkr_time r))].
Definition spkr_serialize (r : spk_rec) : bytes := marshal (spkr_slots r).
Definition LoadSignedPreKeyRecord (b : bytes) : res spk_rec :=
  match parse b with
  | None => Err EProto
  | Some fs => Ok (mkSpkr (g_u32 1 fs) (g_bytes 2 fs) (g_bytes 3 fs) (g_bytes 4 fs) (g_f64 5 fs))
  end.

(* The ranges of the Go types of the fields *)
Definition u32 (v : Z) : Prop := 0 <= v < 2 ^ 32.
Definition typed_chain (c : chain) : Prop :=
  match ch_ck c with Some k => u32 (ck_index k) | None => True end /\ Forall (fun k => u32 (mk_index k)) (ch_mks c).
Definition typed_state (s : sstate) : Prop :=
  u32 (s_version s) /\ u32 (s_prev s) /\ u32 (s_rreg s) /\ u32 (s_lreg s) /\
  match s_sender s with Some c => typed_chain c | None => True end /\
  Forall typed_chain (s_recv s) /\
  match s_pending s with Some p => u32 (pp_pkid p) /\ - 2 ^ 31 <= pp_spkid p < 2 ^ 31 | None => True end.
Definition typed_record (r : srecord) : Prop := Forall typed_state (r_cur r :: r_prevs r).
