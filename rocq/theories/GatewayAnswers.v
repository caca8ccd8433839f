(* What the gateway of the command line program answers to its callers: status and body
   (/repo/cmd/textsecure/main.go 353-503). *)
From Coq Require Import ZArith List Bool.
From Verif Require Import Bytes Res Gateway.
Import ListNotations.
Open Scope Z_scope.

(* regexp: status code 413 *)
Definition s_413 : bytes := [115;116;97;116;117;115;32;99;111;100;101;32;52;49;51].
(* "signal api rate limit reached" *)
Definition s_limit : bytes := [115;105;103;110;97;108;32;97;112;105;32;114;97;116;101;32;108;105;109;105;116;32;114;101;97;99;104;101;100].
(* "remote identity " and " is not trusted" *)
Definition s_remote : bytes := [114;101;109;111;116;101;32;105;100;101;110;116;105;116;121;32].
Definition s_untrusted : bytes := [32;105;115;32;110;111;116;32;116;114;117;115;116;101;100].
(* {"success": false}, {"success": true}, {"success": false, "error": " and "} *)
Definition b_false : bytes := [123;34;115;117;99;99;101;115;115;34;58;32;102;97;108;115;101;125].
Definition b_true : bytes := [123;34;115;117;99;99;101;115;115;34;58;32;116;114;117;101;125].
Definition b_error : bytes := [123;34;115;117;99;99;101;115;115;34;58;32;102;97;108;115;101;44;32;34;101;114;114;111;114;34;58;32;34].
Definition b_end : bytes := [34;125].
(* "form fields message and to are required", "json request contains empty item ", "identity ", " not found" *)
Definition s_required : bytes := [102;111;114;109;32;102;105;101;108;100;115;32;109;101;115;115;97;103;101;32;97;110;100;32;116;111;32;97;114;101;32;114;101;113;117;105;114;101;100].
Definition s_empty : bytes := [106;115;111;110;32;114;101;113;117;101;115;116;32;99;111;110;116;97;105;110;115;32;101;109;112;116;121;32;105;116;101;109;32].
Definition s_ident : bytes := [105;100;101;110;116;105;116;121;32].
Definition s_notfound : bytes := [32;110;111;116;32;102;111;117;110;100].

Fixpoint has_prefix (p b : bytes) : bool :=
  match p, b with
  | [], _ => true
  | x :: p', y :: b' => (x =? y) && has_prefix p' b'
  | _, [] => false
  end.
(* MatchString of a constant *)
Fixpoint contains (p b : bytes) : bool :=
  has_prefix p b || match b with [] => false | _ :: r => contains p r end.
(* \d* and then " is not trusted"; as that does not begin with a digit, all digits are taken *)
Fixpoint digits_untrusted (b : bytes) : bool :=
  match b with
  | c :: r => if digit10 c then digits_untrusted r else has_prefix s_untrusted b
  | [] => false
  end.
(* remote identity \d+ is not trusted *)
Definition here_untrusted (b : bytes) : bool :=
  has_prefix s_remote b &&
  match skipn (length s_remote) b with c :: r => digit10 c && digits_untrusted r | [] => false end.
Fixpoint says_untrusted (b : bytes) : bool :=
  here_untrusted b || match b with [] => false | _ :: r => says_untrusted r end.
(* strings.Trim(s, "\n") *)
Fixpoint trim_left (b : bytes) : bytes := match b with c :: r => if c =? 10 then trim_left r else b | [] => [] end.
Definition trim (b : bytes) : bytes := rev (trim_left (rev (trim_left b))).
(* GatewaySend (396-406): the text for an error *)
Definition error_text (to e : bytes) : bytes :=
  if contains s_413 e then s_limit
  else if says_untrusted e then s_remote ++ to ++ s_untrusted
  else trim e.

(* sending: None, or the text of the error *)
Definition sending := handed -> option bytes.
Definition outcome (out : sending) (h : handed) : res unit := match out h with None => Ok tt | Some _ => Err EOther end.
(* GatewaySend (381-409): None is (true, "OK"), otherwise the text; open_error is the text of the error of os.Open *)
Definition send_text (out : sending) (open_error : bytes -> bytes) (to text : bytes) (filename : option bytes) (t : tmp) : option bytes :=
  match filename with
  | Some n =>
      match tread n t with
      | None => Some (open_error n)
      | Some b => option_map (error_text to) (out (mkHanded (is_group to) to text (Some b)))
      end
  | None => option_map (error_text to) (out (mkHanded (is_group to) to text None))
  end.
(* the last lines of GatewayHandler and JSONHandler (488-496, 440-449) *)
Definition report (x : option bytes) : Z * bytes :=
  match x with None => (200, b_true) | Some e => (500, b_error ++ e ++ b_end) end.
(* GatewayHandler (453-503) *)
Definition gateway_answer (out : sending) (open_error : bytes -> bytes) (can_open : bytes -> bool) (u : upload) (t : tmp) : Z * bytes :=
  if negb (u_post u) then (500, b_false)
  else
    let (t1, filename) :=
      match u_file u with
      | Some (n, b) => if can_open n then (twrite n (overwrite b (tread n t)) t, Some n) else (t, None)
      | None => (t, None)
      end in
    match u_text u, u_to u with
    | [], _ | _, [] => (500, b_error ++ s_required ++ b_end)
    | _, _ => report (send_text out open_error (u_to u) (u_text u) filename t1)
    end.
(* JSONHandler (412-450); field is the name of the message in the requests. A panic ends the request without an answer. *)
Definition json_answer (out : sending) (field : bytes) (body : option jvalue) (to : bytes) : res (Z * bytes) :=
  match body with
  | None => Ok (500, b_false)
  | Some JAbsent | Some JNull => Ok (500, b_error ++ s_empty ++ field ++ b_end)
  | Some (JText s) => Ok (report (send_text out (fun _ => []) to s None []))
  | Some JOther => Panic
  end.
(* RekeyHandler (353-378); removed says whether os.Remove succeeds *)
Definition rekey_answer (removed : bytes -> bool) (delete : bool) (identity : bytes) : Z * bytes :=
  match RekeyHandler delete identity with
  | Some p => if removed p then (200, b_true) else (500, b_error ++ s_ident ++ identity ++ s_notfound ++ b_end)
  | None => (500, b_false)
  end.
