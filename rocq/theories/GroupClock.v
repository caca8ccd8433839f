(* Who a client says it is when it asks about a group of the second version, and when: /repo/groupsv2/groupsv2api.go
   28-68, basicAuth of groupsv2.go 378-381 and the first lines of queryGroupChangeFromServer (163-176), on top of
   Credentials. The clock is read twice, in NewGroupsV2Authorization (30, seconds by 86400) and in getToday
   (credentials.go 34-36); now is the first reading in days, today the second. Not modelled: the parameters of the
   server, which are a constant of config.go that parses; the errors of lines 29, 37-41 that are only logged (the
   library then gets nothing to work on, which is al_receive of what it got). *)
From Coq Require Import ZArith List Lia Bool.
From Verif Require Import Bytes Res Crypto Encodings Transport Credentials Groups2Store.
Import ListNotations.
Open Scope Z_scope.

(* The libraries: the UUID as bytes (uuidToByte, 129-132), the public parameters of a master key, ReceiveAuthCredential
   of a UUID, a day and the bytes of a credential, CreateAuthCredentialPresentation for a master key *)
Record authlib := mkAuthlib {
  al_uuid : bytes -> bytes;
  al_public : bytes -> bytes;
  al_receive : bytes -> Z -> bytes -> option bytes;
  al_present : bytes -> bytes -> option bytes }.

(* NewGroupsV2Authorization (28-68): user and password *)
Definition NewGroupsV2Authorization (L : authlib) (serve : Z -> Z -> reply) (now today : Z) (uuid key : bytes) (c : cache)
  : res (bytes * bytes) * cache :=
  let (r, c1) := GetCredentialForRedemption serve today now c in
  (match r with
   | Ok (_, cr) => match al_receive L uuid (now mod 2 ^ 32) cr with
                   | None => Err EOther
                   | Some ac => match al_present L key ac with
                                | None => Err ENotFound
                                | Some p => Ok (hex (al_public L key), hex p)
                                end
                   end
   | Err e => Err e
   | Panic => Panic
   end, c1).

(* queryGroupChangeFromServer (163-176): store is what the server of groups answers to a header; me the configured UUID *)
Definition ask (L : authlib) (serve : Z -> Z -> reply) (store : bytes -> answer2) (now today : Z) (me key : bytes) (c : cache)
  : answer2 * cache :=
  let (r, c1) := NewGroupsV2Authorization L serve now today (al_uuid L me) key c in
  (match r with Ok (u, p) => store (basicAuth u p) | Err e => Refused e | Panic => Refused EOther end, c1).
