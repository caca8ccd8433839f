(* What the command line program prints of a received message: timestamp, pretty, getName and the two Printf of
   messageHandler (/repo/cmd/textsecure/main.go 232-243, 281-306). The time zone is an offset in seconds. *)
From Coq Require Import ZArith List Lia Bool.
From Verif Require Import Bytes Receiving.
Import ListNotations.
Open Scope Z_scope.

(* textsecure.Message as far as it is printed: Source, the UUID of the sender, which is not printed, the name of
   the group if Group is not nil, the text and Timestamp *)
Record pmsg := mkPmsg { pm_source : bytes; pm_uuid : bytes; pm_group : option bytes; pm_text : bytes; pm_time : Z }.

(* A message as the library hands it to the program (/repo/handler.go 90-106, 140-145, message.go 15): the field group
   is set nowhere, and the group of the second version (m_group) is not looked at *)
Definition line_of (m : message) : pmsg := mkPmsg (m_source m) (m_uuid m) None (m_text m) (m_ts m).

(* two digits *)
Definition two (v : Z) : bytes := [48 + v / 10; 48 + v mod 10].
(* Sun Mon Tue Wed Thu Fri Sat; 1 January 1970 was a Thursday *)
Definition weekday (d : Z) : bytes :=
  nth (Z.to_nat ((d + 4) mod 7)) [[83;117;110]; [77;111;110]; [84;117;101]; [87;101;100]; [84;104;117]; [70;114;105]; [83;97;116]] [].
(* timestamp (283-286): time.Unix(0, int64(t)*1000000).Format("Mon 03:04"), which writes the hour of a clock with
   twelve hours *)
Definition wrap64 (v : Z) : Z := (v + 2 ^ 63) mod 2 ^ 64 - 2 ^ 63.
Definition hour12 (h : Z) : Z := if h mod 12 =? 0 then 12 else h mod 12.
Definition timestamp (zone ts : Z) : bytes :=
  let sec := wrap64 (wrap64 ts * 1000000) / 1000000000 + zone in
  weekday (sec / 86400) ++ [32] ++ two (hour12 (sec mod 86400 / 3600)) ++ [58] ++ two (sec mod 3600 / 60).

(* getName (301-306); telToName is filled from the contacts (main.go 589-595) *)
Fixpoint getName (names : list (bytes * bytes)) (tel : bytes) : bytes :=
  match names with
  | [] => tel
  | (k, n) :: r => if beq k tel then n else getName r tel
  end.
(* pretty (288-297) *)
Definition pretty (zone : Z) (names : list (bytes * bytes)) (m : pmsg) : bytes :=
  let src := getName names (pm_source m) in
  let src := match pm_group m with Some g => src ++ [91] ++ g ++ [93] | None => src end in
  timestamp zone (pm_time m) ++ [32] ++ src ++ [32] ++ pm_text m.
(* the bytes written to the terminal (232-243): "\r%s\n>", and once more unless raw is set *)
Definition printed (raw : bool) (zone : Z) (names : list (bytes * bytes)) (m : pmsg) : bytes :=
  match pm_text m with
  | [] => []
  | _ => let l := [13] ++ pretty zone names m ++ [10; 62] in if raw then l else l ++ l
  end.
