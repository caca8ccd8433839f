(* What the command line program leaves of the attachments it receives: /repo/cmd/textsecure/main.go 245-247, 267-279,
   with ioutil.TempFile of the Go library (a name that does not exist yet, found by up to 10000 attempts, created
   exclusively) and io.Copy from a reader over bytes, which does not fail by itself. *)
From Coq Require Import ZArith List Lia Bool.
From Verif Require Import Bytes Gateway.
Import ListNotations.
Open Scope Z_scope.

Definition files := list (bytes * bytes).
Fixpoint content (fs : files) (name : bytes) : option bytes :=
  match fs with [] => None | (n, b) :: t => if beq n name then Some b else content t name end.

(* "TextSecure_Attachment", main.go 268 *)
Definition att_prefix : bytes := [84;101;120;116;83;101;99;117;114;101;95;65;116;116;97;99;104;109;101;110;116].
Definition attempts_max : nat := Z.to_nat 10000.

(* what the surroundings do: the random ends of names, by attempt; whether a file can be made; how many bytes can be
   written before writing fails, if it does *)
Record surroundings := mkSur { su_end : nat -> bytes; su_make : nat -> bool; su_room : nat -> option nat }.

(* the working directory, the number of names tried, of files asked for, and what was noted in the log *)
Record saved := mkSaved { sa_files : files; sa_tried : nat; sa_asked : nat; sa_log : list (Z * bytes * bytes) }.

(* ioutil.TempFile(".", "TextSecure_Attachment"), main.go 268 *)
Fixpoint tempName (left : nat) (su : surroundings) (tried : nat) (fs : files) : option bytes * nat :=
  match left with
  | O => (None, tried)
  | S k =>
      let name := att_prefix ++ su_end su tried in
      match content fs name with
      | Some _ => tempName k su (S tried) fs
      | None => (Some name, S tried)
      end
  end.

(* handleAttachment, main.go 267-279. A file that could not be written to the end is left as it is. *)
Definition handleAttachment (su : surroundings) (src data : bytes) (s : saved) : saved :=
  let k := sa_asked s in
  if su_make su k then
    match tempName attempts_max su (sa_tried s) (sa_files s) with
    | (None, n) => mkSaved (sa_files s) n (S k) (sa_log s)
    | (Some name, n) =>
        match su_room su k with
        | Some r =>
            if (r <? length data)%nat then mkSaved (sa_files s ++ [(name, firstn r data)]) n (S k) (sa_log s)
            else mkSaved (sa_files s ++ [(name, data)]) n (S k) (sa_log s ++ [(zlen data, src, name)])
        | None => mkSaved (sa_files s ++ [(name, data)]) n (S k) (sa_log s ++ [(zlen data, src, name)])
        end
    end
  else mkSaved (sa_files s) (sa_tried s) (S k) (sa_log s).

(* the loop over the attachments of a message, main.go 245-247, among its other effects *)
Definition perform (su : surroundings) (s : saved) (e : effect) : saved :=
  match e with SavedAttachment src data => handleAttachment su src data s | _ => s end.
Definition performed (su : surroundings) (s : saved) (l : list effect) : saved := fold_left (perform su) l s.
(* all messages that arrive *)
Definition received (su : surroundings) (f : flags) (ms : list cmsg) (cur : bytes) (s : saved) : saved :=
  performed su s (concat (snd (messages f ms cur))).
