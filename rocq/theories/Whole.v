(* Two clients of the library and the server between them: texts are given to SendMessage (/repo/textsecure.go 134-142), the server
   passes them on, and the frames it sends are read by StartListening (/repo/websocket.go 143-224). Everything in between is the code
   modelled in Sending.v and Receiving.v; what is added here is an honest server. *)
From Coq Require Import ZArith List Lia Bool.
From Verif Require Import Bytes Res Wire Crypto Cbc Messages Session Builder Conversation RecordCodec RecordCodecProofs Content ContentProofs Encodings Sending Receiving PropSending PropReceiving.
Import ListNotations.
Open Scope Z_scope.

(* what belongs to a client: its UUID, its profile key and signaling key, and the randomness of its session builds *)
Record account := mkAccount { ac_name : bytes; ac_pkey : option bytes; ac_skey : bytes; ac_rand : nat -> bytes }.
(* what a client keeps: the store, the device lists, how much randomness is used up, the profile keys of the contacts *)
Record node := mkNode { nd_w : world; nd_devs : bytes -> option (list Z); nd_rnd : nat; nd_pkeys : bytes -> option (option bytes) }.
(* the clients, the requests the server has accepted, and the calls of the callbacks *)
Record net := mkNet { nt_node : side -> node; nt_relay : list (side * request); nt_calls : side -> list hcall }.

Inductive user_act : Type :=
| UText (x : side) (text : bytes) (timer now : Z)   (* the user of x sends a text at the time now *)
| UFrame (j : nat) (f : Receiving.frame).                     (* the addressee of message j gets the frame f *)

Section W.
Variable C : crypto.
Variable st : setup.
Variable ac : side -> account.

(* the server as x sees it: it has the prekeys of B, and accepts every message *)
Definition relay (x : side) : server :=
  mkServer (list (side * request))
    (fun s dest dev => (if beq dest (ac_name (ac SB)) && (dev =? 1) then published C st else PkErr ENotFound, s))
    (fun s q => (PutStatus 200 [] [] [] false, s ++ [(x, q)])).

Definition do_text (y : net) (x : side) (text : bytes) (timer now : Z) : option (res Z) * net :=
  let n := nt_node y x in
  let cs := mkCs (relay x) (nd_w n) (nd_devs n) (nd_rnd n) (nt_relay y) [] in
  let (r, cs') := SendMessage C (relay x) (ac_rand (ac x)) 1 (ac_name (ac x)) (ac_pkey (ac x)) now
                    (ac_name (ac (other x))) text timer cs in
  (r, mkNet (upd_side (nt_node y) x (mkNode (cs_w (relay x) cs') (cs_devs (relay x) cs') (cs_rnd (relay x) cs') (nd_pkeys n)))
        (cs_srv (relay x) cs') (nt_calls y)).

Definition trace_calls (tr : list trace) : list hcall := flat_map (fun t => match t with TAct (ACall h) => [h] | _ => [] end) tr.
Definition do_frame (y : net) (x : side) (f : Receiving.frame) : list trace * ended * net :=
  let n := nt_node y x in
  let '(tr, rs, e) := listen C (ac_skey (ac x)) (mkRs (nd_w n) (nd_pkeys n)) [f] in
  (tr, e, mkNet (upd_side (nt_node y) x (mkNode (rs_w rs) (nd_devs n) (nd_rnd n) (rs_pkeys rs))) (nt_relay y)
            (upd_side (nt_calls y) x (nt_calls y x ++ trace_calls tr))).

Definition ustep (y : net) (a : user_act) : net :=
  match a with
  | UText x text timer now => snd (do_text y x text timer now)
  | UFrame j f =>
      match nth_error (nt_relay y) j with
      | Some (x, _) => snd (do_frame y (other x) f)
      | None => y
      end
  end.
Definition urun (y : net) (l : list user_act) : net := fold_left ustep l y.

(* the beginning: nobody has sent anything *)
Definition begin_net (devs : side -> bytes -> option (list Z)) (pkeys : side -> bytes -> option (option bytes)) : net :=
  mkNet (fun x => mkNode (st_w st x) (devs x) 0 (pkeys x)) [] (fun _ => []).

(* ---- the honest server's frames ---- *)
Definition env_type (t : mtype) : Z := match t with CIPHERTEXT => 1 | PREKEY_BUNDLE => 3 end.
(* the body: the envelope, sealed with the signaling key or not (which must not look sealed) *)
Definition body_of_envelope (sk p body : bytes) : Prop :=
  (exists v iv c, length sk = 52%nat /\ length iv = 16%nat /\ wfb iv /\ Encrypt C (firstn 32 sk) iv p = Ok c /\
     body = (v :: iv ++ c) ++ firstn 10 (hmac C (skipn 32 sk) (v :: iv ++ c))) \/
  (body = p /\ 10 <= zlen p /\ 32 <= zlen sk /\
     let n := Z.to_nat (zlen p - 10) in firstn 10 (hmac C (skipn 32 sk) (firstn n p)) <> skipn n p).
(* a websocket request (type 1) with any verb and path *)
Definition request_frame (verb path body : bytes) (id : Z) : bytes :=
  marshal [(1, [WVarint 1]); (2, f_msg [(1, [WLen verb]); (2, [WLen path]); (3, [WLen body]); (4, [WVarint id])])].
(* frame f, with number id, carries message j *)
Definition carries (y : net) (j : nat) (f : Receiving.frame) (id : Z) : Prop :=
  exists x q jm b sts verb path body,
    nth_error (nt_relay y) j = Some (x, q) /\ q_msgs q = [jm] /\ dec64 (j_content jm) = Ok b /\
    body_of_envelope (ac_skey (ac (other x)))
      (env_bytes (mkEnv (Some (env_type (j_type jm))) (Some (ac_name (ac x))) (Some 1) None (Some (q_ts q)) (Some b) (Some sts))) body /\
    fr_bytes f = request_frame verb path body id /\ u64 id /\ u64 sts /\ zlen (fr_bytes f) < 2 ^ 62.

(* ---- what the users expect, in terms of the specification of Conversation.v ---- *)
Definition the_out (x : side) (text : bytes) (timer : Z) : outgoing := mkOut (ac_name (ac (other x))) text None None None 0 timer None.
Definition padded (x : side) (text : bytes) (timer now : Z) : bytes :=
  padMessage (marshal_data (createMessage (ac_pkey (ac x)) now (the_out x text timer))).
Definition abstract (a : user_act) : action :=
  match a with
  | UText x text timer now => Send x (padded x text timer now)
  | UFrame j f => Deliver j (fr_rnd f)
  end.
(* the texts sent so far *)
Definition texts (l : list user_act) : list (side * bytes * Z * Z) :=
  flat_map (fun a => match a with UText x text timer now => [(x, text, timer, now)] | _ => [] end) l.
(* how a text is presented to the other side *)
Definition presented (t : side * bytes * Z * Z) : hcall :=
  let '(x, text, timer, now) := t in
  HMessage (mkMsg (ac_name (ac x)) (ac_name (ac x)) text [] None 0 timer (ac_pkey (ac x)) now None [] None None).

(* one party cannot send before it has a session; texts, timers and times are representable *)
Definition possible (y : net) (sp : spec) (a : user_act) : Prop :=
  match a with
  | UText x text timer now =>
      sp_epoch sp x <> 0%nat /\ wfb text /\ u32 timer /\ u64 now /\
      zlen (marshal_data (createMessage (ac_pkey (ac x)) now (the_out x text timer))) < 2 ^ 59
  | UFrame j f => length (fr_rnd f 0%nat) = 32%nat /\ (exists id, carries y j f id) /\
                  (deliverable sp j = true \/ (no_history st /\ repeated sp j = true))
  end.
Fixpoint feasible (y : net) (sp : spec) (l : list user_act) : Prop :=
  match l with
  | [] => True
  | a :: t => possible y sp a /\ feasible (ustep y a) (spec_step sp (abstract a)) t
  end.
(* what is expected of step a after the steps pre *)
Definition fulfilled (y : net) (sp : spec) (pre : list user_act) (a : user_act) : Prop :=
  match a with
  | UText x text timer now => fst (do_text y x text timer now) = Some (Ok now)
  | UFrame j f =>
      exists t l id, nth_error (texts pre) j = Some t /\ carries y j f id /\
        (let x := other (fst (fst (fst t))) in
         fst (do_frame y x f) = (map TAct l ++ [TAck id], Listening) /\
         (deliverable sp j = true -> calls l = [presented t]) /\
         (repeated sp j = true -> calls l = [] /\ nt_node (snd (do_frame y x f)) x = nt_node y x))
  end.
(* what a side has been shown: the texts of the other side that were delivered, in the order of their delivery *)
Definition delivered_to (x : side) (l : list user_act) (got : list nat) : list hcall :=
  flat_map (fun j => match nth_error (texts l) j with
                     | Some t => if side_eqb (fst (fst (fst t))) x then [] else [presented t]
                     | None => [] end) (rev got).
End W.
