(* The configuration file: ReadConfig, WriteConfig, saveConfig, RefreshConfig and loadConfig
   (/repo/config.go 38-105), SetUsername (/repo/profile.go 6-9), the end of setAccountAttributes
   (/repo/server.go 358-360) and how Setup uses it (/repo/textsecure.go 267-277, /repo/store.go 461-475).
   The client application answers GetConfig by ReadConfig, as /repo/cmd/textsecure/main.go 136-138 does.
   YAML is not modelled: its two directions are arguments, see yaml_ok. *)
From Coq Require Import ZArith List Lia Bool.
From Verif Require Import Bytes Res Crypto Storage Messages Session Builder Startup.
Import ListNotations.
Open Scope Z_scope.

(* config.Config (/repo/config/config.go 4-33): the fields of Startup.v, those loadConfig and setupStore look
   at, and all others together *)
Record settings := mkSet { s_cfg : cfg; s_server : bytes; s_vtype : bytes; s_dir : bytes; s_plain : bool; s_pass : bytes; s_other : bytes }.
Definition set_cfg (s : settings) (c : cfg) : settings := mkSet c (s_server s) (s_vtype s) (s_dir s) (s_plain s) (s_pass s) (s_other s).
(* &config.Config{} *)
Definition zero_cfg : cfg := mkCfg [] [] [] [] [] [].
Definition zero_settings : settings := mkSet zero_cfg [] [] [] false [] [].

(* "https://chat.signal.org:443", "sms", ".storage" (config.go 92, 96, 100) *)
Definition chat_server : bytes :=
  [104;116;116;112;115;58;47;47;99;104;97;116;46;115;105;103;110;97;108;46;111;114;103;58;52;52;51].
Definition by_sms : bytes := [115;109;115].
Definition dot_storage : bytes := [46;115;116;111;114;97;103;101].
Definition orelse (x d : bytes) : bytes := match x with [] => d | _ => x end.
Definition defaults (s : settings) : settings :=
  mkSet (s_cfg s) (orelse (s_server s) chat_server) (orelse (s_vtype s) by_sms) (orelse (s_dir s) dot_storage)
        (s_plain s) (s_pass s) (s_other s).

(* what becomes of a file while ioutil.WriteFile (config.go 60) replaces it. The file is opened with O_TRUNC and
   then written: opening may fail, and the process may stop, or the disk be full, after n bytes. *)
Inductive wout := WKept | WCut (n : nat) | WWhole.
Definition WriteFile (f : option bytes) (b : bytes) (o : wout) : option bytes :=
  match o with WKept => f | WCut n => Some (firstn n b) | WWhole => Some b end.

Section Y.
Variable marshal : settings -> bytes.
Variable unmarshal : bytes -> option settings.

(* ReadConfig (39-52) *)
Definition ReadConfig (f : option bytes) : res settings :=
  match f with
  | None => Err EOther
  | Some b => match unmarshal b with Some s => Ok s | None => Err EOther end
  end.
(* loadConfig (84-105) *)
Definition loadConfig (f : option bytes) : res settings := let* s := ReadConfig f in Ok (defaults s).

(* What a running process, or someone else, does to the configuration. Every save but the one of RefreshConfig
   follows a change of config.ConfigFile. *)
Inductive op :=
| Change (g : settings -> settings)
| Refresh
| Edit (s : settings).       (* someone else writes the file, whole *)
(* the file and config.ConfigFile *)
Definition live : Type := option bytes * settings.
Definition step (v : live) (x : op * wout) : live :=
  match fst x with
  | Change g => (WriteFile (fst v) (marshal (g (snd v))) (snd x), g (snd v))
  | Refresh => match loadConfig (fst v) with
               | Ok s => (WriteFile (fst v) (marshal s) (snd x), snd v)
               | _ => v
               end
  | Edit s => (Some (marshal s), snd v)
  end.
Definition run (v : live) (l : list (op * wout)) : live := fold_left step l v.
(* SetUsername (profile.go 6-9) *)
Definition SetUsername (n : bytes) : op := Change (fun s => set_cfg s (with_name n (s_cfg s))).

(* the configuration file and the directories that a store may be in *)
Record home := mkHome { h_file : option bytes; h_dirs : bytes -> files }.
Definition put_dir (h : bytes -> files) (k : bytes) (fs : files) : bytes -> files :=
  fun x => if beq x k then fs else h x.
(* Setup from loadConfig on: setupStore opens the directory with the keys `keys s`, which come from the password
   of the configuration or of the application, and the salt in the directory. The last argument is when the
   process stops: when n of its events have happened. A start that does not save the configuration is taken to
   save it with the defaults filled in, which loads the same. *)
Definition boot_up (C : crypto) (keys : settings -> sconf) (I : input) (h : home) : res (option keypair) :=
  match loadConfig (h_file h) with
  | Ok s => fst (fst (start C (keys s) I (h_dirs h (s_dir s), s_cfg s)))
  | Err e => Err e
  | Panic => Panic
  end.
Definition events (C : crypto) (keys : settings -> sconf) (I : input) (h : home) : list ev :=
  match loadConfig (h_file h) with
  | Ok s => snd (start C (keys s) I (h_dirs h (s_dir s), s_cfg s))
  | _ => []
  end.
Definition home_after (C : crypto) (keys : settings -> sconf) (I : input) (n : nat) (h : home) : home :=
  match loadConfig (h_file h) with
  | Ok s => let d := crashed (h_dirs h (s_dir s), s_cfg s) (firstn n (snd (start C (keys s) I (h_dirs h (s_dir s), s_cfg s)))) in
            mkHome (Some (marshal (set_cfg s (snd d)))) (put_dir (h_dirs h) (s_dir s) (fst d))
  | _ => h
  end.
End Y.

(* what is used of YAML (github.com/go-yaml/yaml): a written configuration is read back, and the empty document
   leaves all fields as they are *)
Record yaml_ok (marshal : settings -> bytes) (unmarshal : bytes -> option settings) : Prop := {
  yaml_back : forall s, unmarshal (marshal s) = Some s;
  yaml_empty : unmarshal [] = Some zero_settings }.
