(* A message to a group of the second version, with the sending of Sending instead of an outcome: the loop of
   sendGroupV2Helper, /repo/groups.go 229-250 (what comes before is in Groups2Store). *)
From Coq Require Import ZArith List Lia Bool.
From Verif Require Import Bytes Res Wire Crypto Messages Session Builder RecordCodec Content Sending.
Import ListNotations.
Open Scope Z_scope.

(* the message for one member, groups.go 234-241; ts is read from the clock once, 229 *)
Definition member_message (dest text : bytes) (att : option pointer) (timer ts : Z) (g : gctx2) : outgoing :=
  mkOut dest text None (Some g) att 0 timer (Some ts).

Section G.
Variables (C : crypto) (V : server) (rnd : nat -> bytes).
(* groups.go 233-250; last is the variable ts of the function. The clock that createMessage reads (clock) is not used
   since the message has a time. *)
Fixpoint send_members (fuel : nat) (self : bytes) (pk : option bytes) (clock : Z) (text : bytes) (att : option pointer)
    (timer ts : Z) (g : gctx2) (dests : list bytes) (last : Z) (st : cstate V) : option (res Z) * cstate V :=
  match dests with
  | [] => (Some (Ok last), st)
  | d :: r =>
      match sendMessage C V rnd fuel self pk clock (member_message d text att timer ts g) st with
      | (Some (Ok t), st') => send_members fuel self pk clock text att timer ts g r t st'
      | (Some (Err e), st') => (Some (Err e), st')
      | (Some Panic, st') => (Some Panic, st')
      | (None, st') => (None, st')
      end
  end.
End G.
