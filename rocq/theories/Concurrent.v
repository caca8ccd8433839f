(* Several goroutines on one device's stores: the application sending (textsecure.SendMessage, from any
   number of goroutines, cmd/textsecure/main.go 641-652) while the listener (textsecure.StartListening)
   handles what arrives.

   What the code does about it: axolotl/store.go 29-30 and store.go 38-42 give the session store a
   sync.Mutex, which is taken for their whole length (Lock, deferred Unlock) by
     SessionEncryptMessage               axolotl/session.go 523-525
     SessionDecryptWhisperMessage        axolotl/session.go 658-660
     SessionDecryptPreKeyWhisperMessage  axolotl/session.go 677-679
   and by nothing else: BuildSenderSession (443-499), GetRemoteRegistrationID (574-581) and
   ContainsSession are called without it (server.go 822-858).

   A step of this model is one access to the files: a read of one kind of file, the truncation of a
   session file, the writing of its content, the writing of an identity or the removal of a one-time key;
   or taking, or giving back, the mutex. Any interleaving of the steps of the goroutines is allowed.
   Simplified: only session files are seen truncated (os.WriteFile opens with O_TRUNC and then writes in
   one call); a truncated file is empty; storage is encrypted (the default), so reading an empty file is a
   panic (store.go 148-161, C25), which ends the process. Go's memory model is not needed: the stores hold
   no state but the files, apart from the keys of the storage that never change. *)
From Coq Require Import ZArith List Lia Bool.
From Verif Require Import Bytes Res Wire Crypto Cbc Messages Session Builder History.
Import ListNotations.
Open Scope Z_scope.

(* the files, and which session files are truncated and not yet written *)
Record mem : Type := mkMem { m_w : world; m_torn : list (bytes * Z) }.

Inductive outcome : Type := Returned (ok : bool) (out : list sent) | Died.

(* a piece of code between two accesses *)
Inductive prog : Type :=
| PEnd (r : outcome)
| PRead (k : mem -> prog)
| PTrunc (rid : bytes) (dev : Z) (k : prog)
| PWrite (e : eff) (k : prog).

Definition is_torn (m : mem) (rid : bytes) (dev : Z) : bool :=
  existsb (fun p => beq (fst p) rid && (snd p =? dev)) (m_torn m).
Definition untorn (rid : bytes) (dev : Z) (l : list (bytes * Z)) : list (bytes * Z) :=
  filter (fun p => negb (beq (fst p) rid && (snd p =? dev))) l.

(* store.go 172-180 (writeFile), os.WriteFile *)
Definition do_write (e : eff) (m : mem) : mem :=
  mkMem (apply_eff (m_w m) e)
    (match e with EStoreSession rid dev _ _ => untorn rid dev (m_torn m) | _ => m_torn m end).

(* the writes of a call, one by one; a session file is truncated first *)
Fixpoint writes (l : list eff) (r : outcome) : prog :=
  match l with
  | [] => PEnd r
  | EStoreSession rid dev a b :: t => PTrunc rid dev (PWrite (EStoreSession rid dev a b) (writes t r))
  | e :: t => PWrite e (writes t r)
  end.

Definition peer (c : call) : bytes * Z :=
  match c with CEnc rid dev _ | CRecv rid dev _ _ _ | CBuild rid dev _ _ _ => (rid, dev) end.

Section M.
Variable C : crypto.

(* What a call computes from what it has read: the session file in m1, the trusted identities in m2, the
   signed keys in m3, the one-time keys in m4, the identity and the registration number in m5. *)
Definition pieces (m1 m2 m3 m4 m5 : mem) : world :=
  mkWorld (w_ident (m_w m5)) (w_reg (m_w m5)) (w_trust_all (m_w m2)) (w_sess (m_w m1)) (w_pre (m_w m4))
    (w_spk (m_w m3)) (w_ids (m_w m2)).
Definition commit (c : call) (m1 m2 m3 m4 m5 : mem) : prog :=
  if is_torn m1 (fst (peer c)) (snd (peer c)) then PEnd Died else
  let '(ok, out, l) := perform_call C (pieces m1 m2 m3 m4 m5) c in writes l (Returned ok out).

(* session.go 523-572, 658-674 and 677-701 with 383-440: LoadSession, IsTrustedIdentity, LoadSignedPreKey,
   LoadPreKey, GetIdentityKeyPair and GetLocalRegistrationID, then SaveIdentity, RemovePreKey and
   StoreSession. A call that ends early makes fewer of the reads; reads have no effect. *)
Definition body (c : call) : prog :=
  PRead (fun m1 => PRead (fun m2 => PRead (fun m3 => PRead (fun m4 => PRead (fun m5 =>
  commit c m1 m2 m3 m4 m5))))).
(* session.go 443-499: IsTrustedIdentity, LoadSession, GetIdentityKeyPair, GetLocalRegistrationID, then
   StoreSession and SaveIdentity *)
Definition build_body (rid : bytes) (dev : Z) (b : bundle) (rbase rratchet : bytes) : prog :=
  PRead (fun m2 => PRead (fun m1 => PRead (fun m5 =>
  commit (CBuild rid dev b rbase rratchet) m1 m2 m1 m1 m5))).

(* What a goroutine does, in order. *)
Inductive op : Type :=
| OCipher (c : call)                    (* one of the three calls that take the mutex *)
| OReg (rid : bytes) (dev : Z)          (* GetRemoteRegistrationID, server.go 848 *)
| OFirst (rid : bytes) (dev : Z) (b : bundle) (rbase rratchet : bytes).
   (* server.go 822-839: unless there is a session file, fetch the keys b and build a session *)

Definition has_file (m : mem) (rid : bytes) (dev : Z) : bool :=
  is_torn m rid dev || match w_sess (m_w m) rid dev with Some _ => true | None => false end.

Definition free_body (o : op) : prog :=
  match o with
  | OCipher c => PEnd (Returned false [])
  | OReg rid dev => PRead (fun m => PEnd (if is_torn m rid dev then Died else Returned true []))
  | OFirst rid dev b rbase rratchet =>
      PRead (fun m => if has_file m rid dev then PEnd (Returned true [])
                      else build_body rid dev b rbase rratchet)
  end.

(* server.go 813-863: sending one content to one device of a peer *)
Definition send_ops (rid : bytes) (dev : Z) (b : bundle) (rbase rratchet pt : bytes) : list op :=
  [OFirst rid dev b rbase rratchet; OCipher (CEnc rid dev pt); OReg rid dev].

Inductive tstate : Type :=
| Ready (todo : list op)
| Inside (c : call) (p : prog) (todo : list op)      (* holding the mutex *)
| Free (o : op) (p : prog) (todo : list op).

(* a call that has returned: who made it and what it gave *)
Record entry : Type := mkEntry { e_who : nat; e_call : call; e_res : bool * list sent }.

Record pstate : Type := mkP {
  p_mem : mem;
  p_lock : option nat;
  p_thr : nat -> tstate;
  p_log : list entry;               (* the calls under the mutex, in the order in which they returned *)
  p_dead : bool }.

Definition set_thr (f : nat -> tstate) (i : nat) (t : tstate) : nat -> tstate :=
  fun j => if Nat.eqb j i then t else f j.

(* one access of goroutine i; nothing if it waits for the mutex, is finished, or the process has ended *)
Definition pstep (s : pstate) (i : nat) : pstate :=
  if p_dead s then s else
  match p_thr s i with
  | Ready [] => s
  | Ready (OCipher c :: t) =>
      match p_lock s with
      | Some _ => s
      | None => mkP (p_mem s) (Some i) (set_thr (p_thr s) i (Inside c (body c) t)) (p_log s) false
      end
  | Ready (o :: t) => mkP (p_mem s) (p_lock s) (set_thr (p_thr s) i (Free o (free_body o) t)) (p_log s) false
  | Inside c p t =>
      match p with
      | PEnd Died => mkP (p_mem s) (p_lock s) (p_thr s) (p_log s) true
      | PEnd (Returned ok out) =>
          mkP (p_mem s) None (set_thr (p_thr s) i (Ready t)) (p_log s ++ [mkEntry i c (ok, out)]) false
      | PRead k => mkP (p_mem s) (p_lock s) (set_thr (p_thr s) i (Inside c (k (p_mem s)) t)) (p_log s) false
      | PTrunc rid dev k =>
          mkP (mkMem (m_w (p_mem s)) ((rid, dev) :: m_torn (p_mem s))) (p_lock s)
            (set_thr (p_thr s) i (Inside c k t)) (p_log s) false
      | PWrite e k =>
          mkP (do_write e (p_mem s)) (p_lock s) (set_thr (p_thr s) i (Inside c k t)) (p_log s) false
      end
  | Free o p t =>
      match p with
      | PEnd Died => mkP (p_mem s) (p_lock s) (p_thr s) (p_log s) true
      | PEnd (Returned _ _) => mkP (p_mem s) (p_lock s) (set_thr (p_thr s) i (Ready t)) (p_log s) false
      | PRead k => mkP (p_mem s) (p_lock s) (set_thr (p_thr s) i (Free o (k (p_mem s)) t)) (p_log s) false
      | PTrunc rid dev k =>
          mkP (mkMem (m_w (p_mem s)) ((rid, dev) :: m_torn (p_mem s))) (p_lock s)
            (set_thr (p_thr s) i (Free o k t)) (p_log s) false
      | PWrite e k =>
          mkP (do_write e (p_mem s)) (p_lock s) (set_thr (p_thr s) i (Free o k t)) (p_log s) false
      end
  end.

Definition prun (s : pstate) (sched : list nat) : pstate := fold_left pstep sched s.

(* goroutine i is to do threads i; nothing is open *)
Definition pinit (w : world) (threads : nat -> list op) : pstate :=
  mkP (mkMem w []) None (fun i => Ready (threads i)) [] false.
End M.
