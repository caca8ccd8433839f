(* C08: how often a position can be used when archived sessions accept messages *)
From Coq Require Import ZArith List Lia Bool.
From Verif Require Import Bytes Res Wire Crypto Cbc Messages Session Builder History HistoryProofs Accounts Reuse Examples PropHistory.
Import ListNotations.
Open Scope Z_scope.

(* C08. It is false that no two messages sent to a peer are at the same position (C08_position_reused_refuted), and
   C08_positions_distinct_partial leaves out the histories in which an archived session takes a message. Here all
   histories are covered (sends to anyone, receptions by any session, sessions built by either side, crashes at any
   point): start from a store without a session with the peer, with fewer than 2^32 steps and distinct fresh ratchet
   keys. Every message handed out for the peer shows a position, and a position is shown by at most as many messages
   as were taken from that peer by archived sessions, and by at most one if there were none. *)
Theorem C08_bound : forall C, crypto_ok C -> forall rid dev w h,
  w_sess w rid dev = None -> 0 <= w_reg w < 2 ^ 32 -> Z.of_nat (length h) < 2 ^ 32 ->
  Forall (fun e => call_typed (ecall e)) h -> NoDup (all_draws C w h) ->
  exists ps, map (fun x => position (se_type x) (se_bytes x))
               (filter (fun x => beq (se_rid x) rid && (se_dev x =? dev)) (snd (history C w h))) = map Some ps /\
    forall p, (count_occ pos_dec ps p <= Nat.max 1 (late_count C rid dev w h))%nat.
Proof.
  intros C OK rid dev w h H0 HR HL HT HN.
  destruct (positions_bound C OK rid dev h [] [] 0 0 w) as (ps & E & N); auto; try lia.
  - constructor; [intros rk ctr []|exact HR|intros q; cbn; lia|]. intros s p E. congruence.
  - exists ps. split; [exact E|exact N].
Qed.
Print Assumptions C08_bound.

(* In particular one message taken by an archived session does no harm: two are needed before a position is used twice. *)
Theorem C08_one_late : forall C, crypto_ok C -> forall rid dev w h,
  w_sess w rid dev = None -> 0 <= w_reg w < 2 ^ 32 -> Z.of_nat (length h) < 2 ^ 32 ->
  Forall (fun e => call_typed (ecall e)) h -> NoDup (all_draws C w h) -> (late_count C rid dev w h <= 1)%nat ->
  exists ps, map (fun x => position (se_type x) (se_bytes x))
               (filter (fun x => beq (se_rid x) rid && (se_dev x =? dev)) (snd (history C w h))) = map Some ps /\ NoDup ps.
Proof.
  intros C OK rid dev w h H0 HR HL HT HN H1. destruct (C08_bound C OK rid dev w h H0 HR HL HT HN) as (ps & E & B).
  exists ps. split; [exact E|]. apply (NoDup_count_occ pos_dec). intros p. specialize (B p). lia.
Qed.
Print Assumptions C08_one_late.

(* Examples. The run of C08_position_reused_refuted reaches the bound: archived sessions take two messages, and two
   messages are sent at the same position. Without its last two events there is one late message, and all is well. *)
Definition hB8one : list event := firstn 4 hB8 ++ [Done (CEnc na 1 [7]); Done (CEnc na 1 [8])].
Example C08_bound_example :
  w_sess ex_worldB na 1 = None /\ Forall (fun e => call_typed (ecall e)) hB8 /\ NoDup (all_draws toy ex_worldB hB8) /\
  late_count toy na 1 ex_worldB hB8 = 2%nat /\
  (exists p, map (fun x => position (se_type x) (se_bytes x)) (snd (history toy ex_worldB hB8)) = [Some p; Some p]) /\
  Forall (fun e => call_typed (ecall e)) hB8one /\ NoDup (all_draws toy ex_worldB hB8one) /\
  late_count toy na 1 ex_worldB hB8one = 1%nat /\ length (snd (history toy ex_worldB hB8one)) = 2%nat.
Proof.
  split; [reflexivity|]. split; [repeat constructor|]. split; [apply nodupb_ok; vm_compute; reflexivity|].
  split; [vm_compute; reflexivity|]. split; [eexists; vm_compute; reflexivity|]. split; [repeat constructor|].
  split; [apply nodupb_ok; vm_compute; reflexivity|]. split; vm_compute; reflexivity.
Qed.
