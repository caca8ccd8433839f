(* The helper process "crayfish": finding and starting it (/repo/crayfish/backend.go 114-171), connecting to it
   (260-303), what it sends (304-347, 360-371), stopping it (350-357, 373-387), registering through it
   (/repo/crayfish/register.go 12-87) and the part of Setup and registerDevice that does so
   (/repo/textsecure.go 262-301, 400-436).
   Requests and answers one by one are in Crayfish.v; a start as a whole is in Startup.v, where the helper is an
   oracle. Left out here: pings, the output of the helper (copyAndCapture) and the end of the helper by itself. *)
From Coq Require Import ZArith List Lia Bool.
From Verif Require Import Bytes Res Decimal Encodings.
Import ListNotations.
Open Scope Z_scope.

(* JSON values as encoding/json sees them; JFrac stands for a number that is not an integer *)
Inductive json := JNull | JBool (b : bool) | JNum (n : Z) | JFrac | JStr (s : bytes)
  | JArr (l : list json) | JObj (l : list (bytes * json)).

(* the value of a member. encoding/json also takes names that differ in case and the last of several members
   of one name; names are unique and lower case here. *)
Fixpoint member (k : bytes) (l : list (bytes * json)) : option json :=
  match l with
  | [] => None
  | (n, v) :: r => if beq n k then Some v else member k r
  end.

(* strconv.ParseUint(s, 10, 32): digits only, at least one, below 2^32 (register.go 45) *)
Definition parse_u32 (s : bytes) : res Z :=
  match s with
  | [] => Err EOther
  | _ => match undec 0 s with
         | Some v => if v <? 2 ^ 32 then Ok v else Err EOther
         | None => Err EOther
         end
  end.

(* encoding/json into a uint8: null leaves it as it was, which is zero *)
Definition dec_u8 (j : json) : res Z :=
  match j with
  | JNum n => if (0 <=? n) && (n <? 256) then Ok n else Err EOther
  | JNull => Ok 0
  | _ => Err EOther
  end.
(* encoding/json into an array of n bytes: elements that are too many are skipped unread, those missing are zero *)
Fixpoint dec_array (n : nat) (l : list json) : res bytes :=
  match n, l with
  | O, _ => Ok []
  | S _, [] => Ok (zeros n)
  | S m, j :: r => let* b := dec_u8 j in let* t := dec_array m r in Ok (b :: t)
  end.
Definition n_uuid : bytes := [117;117;105;100].
Definition n_capable : bytes := [115;116;111;114;97;103;101;95;99;97;112;97;98;108;101].
(* CrayfishWebSocketResponse_VERIFY_REGISTER_MESSAGE (messages.go 20-23) from the message of an answer
   (register.go 69-77). Marshalling and unmarshalling again gives the same value. *)
Definition dec_verify (m : json) : res bytes :=
  match m with
  | JNull => Ok (zeros 16)
  | JObj l =>
    let* u := match member n_uuid l with
              | None | Some JNull => Ok (zeros 16)
              | Some (JArr a) => dec_array 16 a
              | Some _ => Err EOther
              end in
    match member n_capable l with
    | None | Some JNull | Some (JBool _) => Ok u
    | Some _ => Err EOther
    end
  | _ => Err EOther
  end.

(* the request made of the code (register.go 45-59, messages.go 10-16); copy into [52]byte (50-51) *)
Record vreq := mkVreq { v_number : bytes; v_code : Z; v_sig : bytes; v_pass : bytes; v_name : bytes }.
Definition verify_request (number pass name sig code : bytes) : res vreq :=
  let* v := parse_u32 code in
  Ok (mkVreq number v (firstn 52 sig ++ zeros (52 - length sig)) pass name).
(* CrayfishRegisterWithCode (register.go 41-87): the text of the identifier. answer: what the helper replies,
   given the request. uuid.FromBytes takes exactly 16 bytes; String is the same text as idToHexUUID. *)
Definition CrayfishRegisterWithCode (answer : vreq -> json) (number pass name sig code : bytes) : res bytes :=
  let* q := verify_request number pass name sig code in
  let* id := dec_verify (answer q) in
  idToHexUUID id.

(* what the helper sends, as decoded (backend.go 65-99); None is a nil pointer *)
Record wmsg := mkW { m_type : option Z; m_request : option (option Z); m_response : option (option Z * json) }.
(* backend.go 313-346, 360-371: what is put on receiveChannel, if there is one *)
Definition handle_message (waiting : bool) (m : wmsg) : res (option (Z * json)) :=
  match m_type m with
  | None => Ok None
  | Some t =>
    if t =? 1 then
      match m_request m with
      | Some (Some _) => Ok None
      | _ => Panic
      end
    else if t =? 2 then
      match m_response m with
      | Some (Some ty, v) => Ok (if waiting && (1 <? ty) then Some (ty, v) else None)
      | _ => Panic
      end
    else Ok None
  end.

(* where a program named crayfish is: on the PATH; and ./crayfish, which is absent (can it be created?), a file
   (can it be executed?) or a directory (is target/debug/crayfish there and can it be executed?) *)
Inductive local := LAbsent (writable : bool) | LFile (exec : bool) | LDir (debug : bool).
Record place := mkPlace { k_path : bool; k_local : local }.
Inductive program := OnPath | Here | Debug.
(* backend.go 120-146: the program started, None if the process ends (os.Exit or log.Fatalf), and the
   directory afterwards. OpenFile with O_CREATE|O_EXCL succeeds only where there is no ./crayfish and makes
   an empty file of mode 0600, which then cannot be executed. *)
Definition find_helper (p : place) : option program * place :=
  if k_path p then (Some OnPath, p)
  else match k_local p with
       | LAbsent true => (None, mkPlace false (LFile false))
       | LDir true => (Some Debug, p)
       | _ => (None, p)
       end.

(* CrayfishInstance (backend.go 36-46): LocalUUID, wsconn (nil, or a Conn whose ws is set or not), stopping;
   cmd.Process: has the helper been started, and has it been interrupted *)
Record inst := mkInst { n_local : bytes; n_conn : option bool; n_stopping : bool; n_running : bool; n_interrupted : bool }.
Inductive death := DPanic | DExit.
(* where the goroutine of Setup is *)
Inductive mpc :=
| MLoad                  (* before textsecure.go 266 *)
| MGo (failed : bool)    (* before line 267 *)
| MCheck (failed : bool) (* before line 268 *)
| MReg                   (* before line 279 *)
| MAsk                   (* before line 418: CrayfishRegister *)
| MCode                  (* before line 424: CrayfishRegisterWithCode *)
| MIdle                  (* after the registration, or none needed *)
| MFailed.               (* Setup has returned an error *)
(* where the goroutine of Run is *)
Inductive rpc := RNone | RInit | RFind | RSleep | RLoop | RConnect | REnd.
Record proc := mkProc {
  p_cfg : option bytes;         (* config.ConfigFile: None is nil, otherwise its UUID *)
  p_inst : option inst;         (* crayfish.Instance *)
  p_main : mpc; p_run : rpc;
  p_dead : option death;
  p_place : place;
  p_asked : list bytes }.       (* the local_uuid of the sealed messages handed to the helper, the last first *)
Definition fresh (k : place) : proc := mkProc None None MLoad RNone None k [].

Inductive event :=
| ELoad (r : res bytes)                 (* loadConfig: the UUID in the configuration *)
| EGo                                   (* go crayfish.Run() *)
| ECheck                                (* if err != nil { return err } *)
| ENeed (r : option (res bytes))        (* needsRegistration; if so loadConfig again (400-407) *)
| EAsk                                  (* RegisterWithCrayfish (418, 389-396) *)
| ECode (code : bytes) (answer : vreq -> json)   (* 423-430 *)
| EInit | EFind | EWake | EListen | EConnect (ok : bool) | EClosed   (* the steps of Run and StartListening *)
| ESealed                               (* a sealed message arrives: HandleEnvelope (envelope.go 10-34) *)
| EStop.                                (* Instance.Stop() *)

Definition with_main (m : mpc) (p : proc) := mkProc (p_cfg p) (p_inst p) m (p_run p) (p_dead p) (p_place p) (p_asked p).
Definition with_run (r : rpc) (p : proc) := mkProc (p_cfg p) (p_inst p) (p_main p) r (p_dead p) (p_place p) (p_asked p).
Definition with_conf (c : option bytes) (p : proc) := mkProc c (p_inst p) (p_main p) (p_run p) (p_dead p) (p_place p) (p_asked p).
Definition with_inst (i : inst) (p : proc) := mkProc (p_cfg p) (Some i) (p_main p) (p_run p) (p_dead p) (p_place p) (p_asked p).
Definition with_place (k : place) (p : proc) := mkProc (p_cfg p) (p_inst p) (p_main p) (p_run p) (p_dead p) k (p_asked p).
Definition with_asked (u : bytes) (p : proc) := mkProc (p_cfg p) (p_inst p) (p_main p) (p_run p) (p_dead p) (p_place p) (u :: p_asked p).
Definition die (d : death) (p : proc) := mkProc (p_cfg p) (p_inst p) (p_main p) (p_run p) (Some d) (p_place p) (p_asked p).
Definition with_conn (c : option bool) (i : inst) := mkInst (n_local i) c (n_stopping i) (n_running i) (n_interrupted i).

(* `c.wsconn.send <- m` with c = Instance: both pointers must not be nil (register.go 37, 64, envelope.go 33);
   the channel holds 256 messages and is taken not to be full *)
Definition sending (p : proc) (k : inst -> proc) : proc :=
  match p_inst p with
  | Some i => match n_conn i with Some _ => k i | None => die DPanic p end
  | None => die DPanic p
  end.

(* one step; None if it cannot be taken *)
Definition step (phone pass name sig : bytes) (e : event) (p : proc) : option proc :=
  match p_dead p with Some _ => None | None =>
  match e, p_main p, p_run p with
  | ELoad (Ok u), MLoad, _ => Some (with_main (MGo false) (with_conf (Some u) p))            (* 266 *)
  | ELoad _, MLoad, _ => Some (with_main (MGo true) (with_conf None p))
  | EGo, MGo f, RNone => Some (with_main (MCheck f) (with_run RInit p))                      (* 267 *)
  | ECheck, MCheck f, _ => Some (with_main (if f then MFailed else MReg) p)                  (* 268-270 *)
  | ENeed None, MReg, _ => Some (with_main MIdle p)                                          (* 279 *)
  | ENeed (Some (Ok u)), MReg, _ => Some (with_main MAsk (with_conf (Some u) p))             (* 403-407 *)
  | ENeed (Some _), MReg, _ => Some (with_main MFailed (with_conf None p))
  | EAsk, MAsk, _ => Some (sending p (fun _ => with_main MCode p))                           (* register.go 12-40 *)
  | ECode code answer, MCode, _ =>                                                           (* register.go 41-87 *)
    Some (match parse_u32 code with
          | Ok _ => sending p (fun _ =>
              match CrayfishRegisterWithCode answer phone pass name sig code with
              | Ok u => with_main MIdle (with_conf (Some u) p)                               (* textsecure.go 429-430 *)
              | _ => with_main MFailed p
              end)
          | _ => with_main MFailed p
          end)
  | EInit, _, RInit =>                                                                       (* backend.go 115-118 *)
    Some (match p_cfg p with
          | None => die DPanic p
          | Some u => with_run RFind (with_inst (mkInst u None false false false) p)
          end)
  | EFind, _, RFind =>                                                                       (* backend.go 120-148 *)
    match p_inst p with
    | None => None
    | Some i =>
      let (r, k) := find_helper (p_place p) in
      Some (match r with
            | None => die DExit (with_place k p)
            | Some _ => with_run RSleep (with_place k
                          (with_inst (mkInst (n_local i) (n_conn i) (n_stopping i) true false) p))
            end)
    end
  | EWake, _, RSleep => Some (with_run RLoop p)                                              (* 260-262 *)
  | EListen, _, RLoop =>                                                                     (* 266-267, 287 *)
    match p_inst p with
    | None => None
    | Some i => if n_stopping i then Some (with_run REnd p)
                else Some (with_run RConnect (with_inst (with_conn (Some false) i) p))
    end
  | EConnect ok, _, RConnect =>                                                              (* 288-292 *)
    match p_inst p with
    | None => None
    | Some i => match n_conn i with
                | Some false => Some (if ok then with_inst (with_conn (Some true) i) p else with_run RLoop p)
                | _ => None
                end
    end
  | EClosed, _, RConnect =>                                                                  (* 304-310 *)
    match p_inst p with
    | None => None
    | Some i => match n_conn i with Some true => Some (with_run RLoop p) | _ => None end
    end
  | ESealed, MIdle, _ => Some (sending p (fun i => with_asked (n_local i) p))                (* envelope.go 14-33 *)
  | EStop, _, _ =>                                                                           (* backend.go 373-387 *)
    match p_inst p with
    | None => Some (die DPanic p)
    | Some i =>
      match n_conn i with
      | None => Some (with_inst (mkInst (n_local i) None true (n_running i) (n_interrupted i)) p)
      | Some c => Some (with_inst (mkInst (n_local i) (Some c) true (n_running i) (n_running i || n_interrupted i)) p)
      end
    end
  | _, _, _ => None
  end end.

Fixpoint run (phone pass name sig : bytes) (es : list event) (p : proc) : option proc :=
  match es with
  | [] => Some p
  | e :: r => match step phone pass name sig e p with
              | Some p' => run phone pass name sig r p'
              | None => None
              end
  end.
