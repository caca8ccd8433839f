(* What somebody who reads the network, and perhaps copies the stores of one or both parties at some
   moments, can learn of a conversation: messages and stored values as terms, what can be computed
   from them, and what each store contains. The terms are those built by ratchet.go, session.go and
   messages.go; that the bytes written and sent are their values is proved in SecrecyLink.v.

   Simplifications, all to the advantage of the reader: the length of every text is public; a block
   cipher text is opened by its key alone; the two parts of a concatenation can be told apart. Keys
   derived by HKDF, HMAC and the agreement cannot be guessed, inverted or made to collide; keys of
   other conversations are the reader's own. *)
From Coq Require Import ZArith List Lia Bool.
From Verif Require Import Bytes Res Wire Crypto Cbc Messages Session Builder Conversation.
Import ListNotations.
Open Scope Z_scope.

(* ------------------------------------------------------------------------------------------ *)
(* Private keys *)
Inductive name : Type :=
| NIdent (x : side)         (* identity key *)
| NSigned                   (* B's signed prekey, which is also B's first ratchet key *)
| NOneTime                  (* B's one-time prekey *)
| NBase                     (* A's base key, session.go 471 *)
| NRatchet (n : nat)        (* ratchet key n, counted as in Conversation.v *)
| NOther (n : nat).         (* any key that has nothing to do with this conversation *)

Definition code (p : name) : nat :=
  match p with
  | NIdent SA => 0 | NIdent SB => 1 | NSigned => 2 | NOneTime => 3 | NBase => 4
  | NRatchet n => 5 + 2 * n | NOther n => 6 + 2 * n
  end.
Definition rkn (n : nat) : name := match n with O => NSigned | _ => NRatchet n end.

Inductive term : Type :=
| TConst (b : bytes)
| TPub (p : name)
| TPriv (p : name)
| TDh (p q : name)                                              (* of two private keys, the smaller first *)
| TCat (a b : term)
| THkdf (ikm salt : term) (info : bytes) (n from len : nat)     (* len bytes of n, from place from *)
| THmac (k m : term)
| TTake (n : nat) (t : term)                                    (* a truncated tag *)
| TEnc (k iv pt : term)                                         (* CBC *)
| TText (j : nat).                                              (* the text of message j *)

Definition tdh (p q : name) : term := if (code p <=? code q)%nat then TDh p q else TDh q p.

(* what can be computed from the terms of V *)
Inductive knows (V : term -> Prop) : term -> Prop :=
| k_in t : V t -> knows V t
| k_const b : knows V (TConst b)
| k_pub p : knows V (TPub p)
| k_own n : knows V (TPriv (NOther n))
| k_dh p q : knows V (TPriv p) -> knows V (tdh p q)
| k_cat a b : knows V a -> knows V b -> knows V (TCat a b)
| k_left a b : knows V (TCat a b) -> knows V a
| k_right a b : knows V (TCat a b) -> knows V b
| k_hkdf i s f n a l : knows V i -> knows V s -> knows V (THkdf i s f n a l)
| k_hmac k m : knows V k -> knows V m -> knows V (THmac k m)
| k_take n t : knows V t -> knows V (TTake n t)
| k_enc k iv pt : knows V k -> knows V iv -> knows V pt -> knows V (TEnc k iv pt)
| k_dec k iv pt : knows V (TEnc k iv pt) -> knows V k -> knows V pt.

(* the value of a term *)
Record env : Type := mkEnv { v_priv : name -> bytes; v_text : nat -> bytes }.
Section Eval.
Variable C : crypto.
Variable e : env.
Fixpoint eval (t : term) : bytes :=
  match t with
  | TConst b => b
  | TPub p => basepub C (v_priv e p)
  | TPriv p => v_priv e p
  | TDh p q => dh C (v_priv e p) (basepub C (v_priv e q))
  | TCat a b => eval a ++ eval b
  | THkdf i s f n a l => firstn l (skipn a (hkdf C (eval i) (eval s) f n))
  | THmac k m => hmac C (eval k) (eval m)
  | TTake n t => firstn n (eval t)
  | TEnc k iv pt => match Encrypt C (eval k) (eval iv) (eval pt) with Ok c => c | _ => [] end
  | TText j => v_text e j
  end.
End Eval.

(* ------------------------------------------------------------------------------------------ *)
(* The keys of the conversation. otk says whether a one-time prekey was used. *)
Section Keys.
Variable otk : bool.

(* ratchet.go 173-191 and 211-227 *)
Definition t_km : term :=
  TCat (TConst diversifier) (TCat (tdh NSigned (NIdent SA)) (TCat (tdh (NIdent SB) NBase)
    (TCat (tdh NSigned NBase) (if otk then tdh NOneTime NBase else TConst [])))).
(* ratchet.go 46-58 and 125-135: the root key after ratchet key n *)
Fixpoint t_root (n : nat) : term :=
  match n with
  | O => THkdf t_km (TConst []) str_text 64 0 32
  | S m => THkdf (tdh (rkn m) (rkn n)) (t_root m) str_ratchet 64 0 32
  end.
(* ratchet.go 46-58 and 93-104: the chain of ratchet key k >= 1 after i messages *)
Fixpoint t_ck (k i : nat) : term :=
  match i with
  | O => THkdf (tdh (rkn (k - 1)) (rkn k)) (t_root (k - 1)) str_ratchet 64 32 32
  | S j => THmac (t_ck k j) (TConst [2])
  end.
(* ratchet.go 106-118: the three keys of message i of chain k *)
Definition t_mk (k i from len : nat) : term :=
  THkdf (THmac (t_ck k i) (TConst [1])) (TConst []) str_msgkeys 80 from len.
Definition t_cipher k i := t_mk k i 0 32.
Definition t_mac k i := t_mk k i 32 32.
Definition t_iv k i := t_mk k i 64 16.

(* ------------------------------------------------------------------------------------------ *)
(* Messages. The numbers that are written in clear are given by info. *)
Record info : Type := mkInfo {
  in_prev : nat -> Z;         (* per message *)
  in_reg : Z; in_pkid : Z; in_spkid : Z }.

(* the length of a padded text of n bytes *)
Definition padded (n : nat) : Z := 16 * (Z.of_nat n / 16 + 1).

(* messages.go 74-107: version byte and the four fields *)
Definition t_body (I : info) (j : nat) (m : smsg) : term :=
  TCat (TConst (51 :: varint 10 ++ varint 33 ++ [5]))
    (TCat (TPub (rkn (sm_epoch m)))
      (TCat (TConst (enc_field (2, WVarint (Z.of_nat (sm_idx m))) ++ enc_field (3, WVarint (in_prev I j))
                     ++ varint 34 ++ varint (padded (length (sm_pt m)))))
        (TEnc (t_cipher (sm_epoch m) (sm_idx m)) (t_iv (sm_epoch m) (sm_idx m)) (TText j)))).
(* messages.go 109-117 *)
Definition t_tagged (from : side) (body : term) : term :=
  TCat (TConst [5]) (TCat (TPub (NIdent from)) (TCat (TConst [5]) (TCat (TPub (NIdent (other from))) body))).
Definition t_tag (k i : nat) (from : side) (body : term) : term :=
  TTake 8 (THmac (t_mac k i) (t_tagged from body)).
Definition t_whisper (I : info) (j : nat) (m : smsg) : term :=
  TCat (t_body I j m) (t_tag (sm_epoch m) (sm_idx m) (sm_from m) (t_body I j m)).
(* the length of the above *)
Definition whisper_len (I : info) (j : nat) (m : smsg) : Z :=
  45 + zlen (enc_field (2, WVarint (Z.of_nat (sm_idx m)))) + zlen (enc_field (3, WVarint (in_prev I j)))
  + zlen (varint (padded (length (sm_pt m)))) + padded (length (sm_pt m)).
(* messages.go 186-214: the messages of A's first chain are wrapped *)
Definition t_wire (I : info) (j : nat) (m : smsg) : term :=
  if side_eqb (sm_from m) SA && Nat.eqb (sm_epoch m) 1 then
    TCat (TConst (51 :: enc_field (1, WVarint (in_pkid I)) ++ varint 18 ++ varint 33 ++ [5]))
      (TCat (TPub NBase) (TCat (TConst (varint 26 ++ varint 33 ++ [5])) (TCat (TPub (NIdent SA))
        (TCat (TConst (varint 34 ++ varint (whisper_len I j m)))
          (TCat (t_whisper I j m)
                (TConst (enc_field (5, WVarint (in_reg I)) ++ enc_field (6, WVarint (in_spkid I)))))))))
  else t_whisper I j m.

(* ------------------------------------------------------------------------------------------ *)
(* What x has in its stores that is not public, when the conversation is at sp. last says that the
   one-time prekey is the last-resort one, which is not removed. *)
Definition at_epoch (sp : spec) (x : side) (k : nat) : Prop :=
  (k < sp_epoch sp x)%nat /\ Nat.odd k = match x with SA => false | SB => true end /\
  kept (sp_epoch sp x) k = true.
(* message i of chain k has been delivered *)
Definition read (sp : spec) (k i : nat) : Prop :=
  exists j m, In j (sp_got sp) /\ nth_error (sp_sent sp) j = Some m /\ sm_epoch m = k /\ sm_idx m = i.

Inductive stored (last : bool) (sp : spec) (x : side) : term -> Prop :=
| st_ident : stored last sp x (TPriv (NIdent x))
| st_signed : x = SB -> stored last sp x (TPriv NSigned)
| st_onetime : x = SB -> otk = true -> sp_epoch sp x = 0%nat \/ last = true -> stored last sp x (TPriv NOneTime)
| st_root : sp_epoch sp x <> 0%nat -> stored last sp x (t_root (sp_epoch sp x))
| st_rpriv : sp_epoch sp x <> 0%nat -> stored last sp x (TPriv (rkn (sp_epoch sp x)))
| st_send : sp_epoch sp x <> 0%nat -> stored last sp x (t_ck (sp_epoch sp x) (sp_count sp x))
| st_recv k : k <> 0%nat -> at_epoch sp x k -> stored last sp x (t_ck k (sp_next sp k))
| st_skip k i from len : k <> 0%nat -> at_epoch sp x k -> (i < sp_next sp k)%nat -> ~ read sp k i ->
    In (from, len) [(0, 32); (32, 32); (64, 16)]%nat -> stored last sp x (t_mk k i from len)
(* ratchet.go 200: A's first chain key is also put under B's signed prekey *)
| st_first : x = SA -> at_epoch sp x 0 -> stored last sp x (t_ck 1 0).

(* Everything the reader sees: all messages of the conversation that ended at sp, and the stores
   copied, each with the moment it was copied *)
Inductive view (last : bool) (I : info) (sent : list smsg) (leaks : list (spec * side)) : term -> Prop :=
| v_wire j m : nth_error sent j = Some m -> view last I sent leaks (t_wire I j m)
| v_leak sp x t : In (sp, x) leaks -> stored last sp x t -> view last I sent leaks t.

(* ------------------------------------------------------------------------------------------ *)
(* Which messages are exposed, said by what was copied when, without terms *)
Section Exposed.
Variable last : bool.
Variable leaks : list (spec * side).

(* ratchet key k was in a copied store *)
Definition key_leak (k : nat) : Prop :=
  match k with
  | O => exists sp, In (sp, SB) leaks
  | _ => exists sp x, In (sp, x) leaks /\ sp_epoch sp x = k
  end.
(* the first root key can be computed: B was copied, and there was no one-time prekey or it was
   still there *)
Definition first_leak : Prop :=
  exists sp, In (sp, SB) leaks /\
   (otk = false \/ exists sp', In (sp', SB) leaks /\ (sp_epoch sp' SB = 0%nat \/ last = true)).
Inductive root_leak : nat -> Prop :=
| rl_first : first_leak -> root_leak 0
| rl_copied sp x : In (sp, x) leaks -> sp_epoch sp x <> 0%nat -> root_leak (sp_epoch sp x)
| rl_next k : root_leak k -> key_leak k \/ key_leak (S k) -> root_leak (S k).
Inductive chain_leak (k i : nat) : Prop :=
| cl_sender sp x : In (sp, x) leaks -> sp_epoch sp x = k -> (sp_count sp x <= i)%nat -> chain_leak k i
| cl_receiver sp x : In (sp, x) leaks -> at_epoch sp x k -> (sp_next sp k <= i)%nat -> chain_leak k i
| cl_first sp : k = 1%nat -> In (sp, SA) leaks -> at_epoch sp SA 0 -> chain_leak k i
| cl_root : root_leak (k - 1) -> key_leak (k - 1) \/ key_leak k -> chain_leak k i.
Inductive exposed (k i : nat) : Prop :=
| ex_chain : chain_leak k i -> exposed k i
| ex_skipped sp x : In (sp, x) leaks -> at_epoch sp x k -> (i < sp_next sp k)%nat -> ~ read sp k i -> exposed k i.
End Exposed.
End Keys.
