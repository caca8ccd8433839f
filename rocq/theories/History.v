(* Histories of calls of the session API on one device's stores, with crashes. *)
From Coq Require Import ZArith List Lia Bool.
From Verif Require Import Bytes Res Wire Crypto Cbc Messages Session Builder.
Import ListNotations.
Open Scope Z_scope.

Inductive call : Type :=
| CEnc (rid : bytes) (dev : Z) (pt : bytes)                       (* SessionEncryptMessage *)
| CRecv (rid : bytes) (dev : Z) (ty : mtype) (b : bytes) (rnd : nat -> bytes)
| CBuild (rid : bytes) (dev : Z) (b : bundle) (rbase rratchet : bytes).   (* BuildSenderSession *)

(* a message handed to the caller, and for whom *)
Record sent : Type := mkSent { se_rid : bytes; se_dev : Z; se_type : mtype; se_bytes : bytes }.

Section H.
Variable C : crypto.

(* did the call succeed, what does it hand out, what does it write *)
Definition perform_call (w : world) (c : call) : bool * list sent * list eff :=
  match c with
  | CEnc rid dev pt =>
      match SessionEncryptMessage C w rid dev pt with
      | (Ok (b, ty), l) => (true, [mkSent rid dev ty b], l)
      | (_, l) => (false, [], l)
      end
  | CRecv rid dev ty b rnd =>
      let (r, l) := receive C w rid dev ty b rnd in (is_ok r, [], l)
  | CBuild rid dev b rbase rratchet =>
      let (r, l) := BuildSenderSession C w rid dev b rbase rratchet in (is_ok r, [], l)
  end.

(* A step of a history: a call that runs to its end, or one that is cut off after k store writes (the
   process stops and starts again with what is stored; nothing is handed out). *)
Inductive event : Type := Done (c : call) | Crash (c : call) (k : nat).
Definition ecall (e : event) : call := match e with Done c | Crash c _ => c end.

Definition estep (w : world) (e : event) : world * list sent :=
  match e with
  | Done c => let '(_, out, l) := perform_call w c in (apply_effs w l, out)
  | Crash c k => let '(_, _, l) := perform_call w c in (apply_effs w (firstn k l), [])
  end.

Fixpoint history (w : world) (h : list event) : world * list sent :=
  match h with
  | [] => (w, [])
  | e :: t =>
      let (w1, out) := estep w e in
      let (w2, outs) := history w1 t in (w2, out ++ outs)
  end.
End H.

(* What a message says about itself: its ratchet key and counter, read from the bytes. *)
Definition position (ty : mtype) (b : bytes) : option (bytes * Z) :=
  let of_whisper b := match LoadWhisperMessage b with
                      | Ok m => Some (wm_rkey m, wm_counter m) | _ => None end in
  match ty with
  | CIPHERTEXT => of_whisper b
  | PREKEY_BUNDLE =>
      match parse (tl b) with
      | Some fs => match get_len 4 fs with Some inner => of_whisper inner | None => None end
      | None => None
      end
  end.
