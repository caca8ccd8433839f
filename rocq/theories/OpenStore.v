(* Opening the store: setupStore and newStore (/repo/store.go 43-91, 461-475) and genKeys (125-129). PBKDF2 is
   an argument. The directories are there; setupGroups (477-479) is left out. *)
From Coq Require Import ZArith List Lia Bool.
From Verif Require Import Bytes Res Crypto Cbc Storage Startup ConfigFile.
Import ListNotations.
Open Scope Z_scope.

Section P.
(* pbkdf2.Key(password, salt, 1024, 16+20, sha1.New): 36 bytes *)
Variable pb : bytes -> bytes -> bytes.

(* genKeys (125-129) *)
Definition genKeys (pw salt : bytes) : sconf := mkConf false (firstn 16 (pb pw salt)) (skipn 16 (pb pw salt)).
(* newStore (43-91): the salt file before, 8 random bytes and the outcome of writing them, the salt file
   afterwards *)
Definition newStore (pw rnd : bytes) (o : wout) (salt : option bytes) : res sconf * option bytes :=
  if beq pw [] then (Ok (mkConf true [] []), salt)
  else match salt with
       | None => match o with
                 | WWhole => (Ok (genKeys pw rnd), WriteFile salt rnd o)
                 | _ => (Err EOther, WriteFile salt rnd o)
                 end
       | Some x => (Ok (genKeys pw x), salt)
       end.
(* setupStore (461-475): the password; app is what client.GetStoragePassword answers *)
Definition storePassword (s : settings) (app : bytes) : bytes :=
  if s_plain s then [] else if beq (s_pass s) [] then app else s_pass s.
Definition setupStore (s : settings) (app rnd : bytes) (o : wout) (salt : option bytes) : res sconf * option bytes :=
  newStore (storePassword s app) rnd o salt.

(* the salt file after the store was opened any number of times *)
Definition reopened (l : list (bytes * bytes * wout)) (salt : option bytes) : option bytes :=
  fold_left (fun t x => snd (newStore (fst (fst x)) (snd (fst x)) (snd x) t)) l salt.
End P.
