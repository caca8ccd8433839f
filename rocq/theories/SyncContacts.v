(* SyncContacts: the client asks the other devices of its own account for the contacts. *)
From Coq Require Import ZArith List Bool.
From Verif Require Import Bytes Res Wire Crypto Session RecordCodec Content Sending.
Import ListNotations.
Open Scope Z_scope.

(* proto.Marshal of the content with SyncMessage.Request (4), whose Type is field 1; /repo/sender.go 74-79 *)
Definition marshal_request (t : Z) : bytes := marshal [(2, f_msg [(4, f_msg [(1, [WVarint t])])])].

Section Sync.
Variable C : crypto.
Variable V : server.
Variable rnd : nat -> bytes.

(* SyncContacts, /repo/server.go 534-548: Request_CONTACTS is 1. sendSyncMessage (/repo/sender.go 67-84) reads the
   timestamp of the response even if there is none. The clock is an argument, as the timestamp is nil. *)
Definition SyncContacts (fuel : nat) (self : bytes) (now : Z) (st : cstate V) : option (res unit) * cstate V :=
  match buildAndSend C V rnd fuel self (padMessage (marshal_request 1)) now (default_devs V st self) with
  | (None, st') => (None, st')
  | (Some (Ok _), st') => (Some (Ok tt), st')
  | (Some (Err _), st') => (Some Panic, st')
  | (Some Panic, st') => (Some Panic, st')
  end.
End Sync.
