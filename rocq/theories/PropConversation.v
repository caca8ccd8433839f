(* C01, C02, C03: conversations *)
From Coq Require Import ZArith List Lia Bool.
From Verif Require Import Bytes Res Wire Crypto Cbc Messages Session Builder Conversation
  ConversationProofs FirstMessage InOrder Examples.
Import ListNotations.
Open Scope Z_scope.

(* C01. A builds a session from B's bundle and encrypts; B decrypts to the same text. The setup
   says only that B holds the private keys behind its bundle, that the bundle's signature verifies,
   that neither refuses the other's identity key, and that B's record for A does not know the base
   key yet. *)
Theorem C01_first_message : forall C, crypto_ok C -> forall st, setup_ok C st ->
  forall pt rnd, wfb pt -> zlen pt < 2 ^ 60 -> length (rnd 0%nat) = 32%nat ->
  exists l1 l2 l3 b ty,
    BuildSenderSession C (st_w st SA) (fst (st_peer st SA)) (snd (st_peer st SA)) (the_bundle C st)
      (st_rbase st) (st_rratchet st) = (Ok tt, l1) /\
    SessionEncryptMessage C (apply_effs (st_w st SA) l1) (fst (st_peer st SA)) (snd (st_peer st SA)) pt
      = (Ok (b, ty), l2) /\
    receive C (st_w st SB) (fst (st_peer st SB)) (snd (st_peer st SB)) ty b rnd = (Ok pt, l3).
Proof. exact first_message. Qed.
Print Assumptions C01_first_message.

Example C01_example : setup_ok toy ex_setup.
Proof. exact ex_setup_ok. Qed.

(* a second setup: B has an old session with A and gives no one-time prekey *)
Definition ex_setup2 : setup :=
  mkSetup (st_peer ex_setup)
    (fun x => match x with SA => ex_worldA
       | SB => set_sess ex_worldB na 1 (Some (with_ids empty_ss 3 [] [], [empty_ss])) end)
    (ex_priv 33) 1 None 0 (st_sig ex_setup) (rb 77) (rb 88).
Example C01_example2 : setup_ok toy ex_setup2.
Proof.
  constructor; try (intros []; vm_compute; repeat split; congruence); try (vm_compute; repeat split; congruence).
Qed.

(* C02. For every schedule: every message delivered for the first time whose chain is among the
   receiver's five newest and which is at most 2000 ahead is decrypted to the text that was sent; a
   repeated one is refused without any write (when neither side had an older session); sending never
   fails. The schedule may contain losses, reorderings, repetitions and injected bytes, provided
   injected bytes are refused when they are presented (see C07). *)
Theorem C02_conversation : forall C, crypto_ok C -> forall st, setup_ok C st -> forall acts,
  good_schedule C st acts -> admissible C st (start C st) spec0 acts ->
  forall pre a post, acts = pre ++ a :: post ->
  expected C st (run C st (start C st) pre) (spec_run spec0 pre) a.
Proof. exact conversation. Qed.
Print Assumptions C02_conversation.

(* The schedule: A sends three texts, B gets the third first, answers twice, gets the first, A gets
   the second answer, sends again, B gets a repetition, junk, and the new one. *)
Definition ex_acts : list action :=
  [Send SA [1]; Send SA [2;2]; Send SA [3]; Deliver 2 (fun _ => rb 101); Send SB [10]; Send SB [];
   Deliver 0 (fun _ => rb 102); Deliver 4 (fun _ => rb 103); Send SA [4;5;6]; Deliver 2 (fun _ => rb 104);
   Inject SB CIPHERTEXT [51; 1; 2; 3; 4; 5; 6; 7; 8; 9; 10] (fun _ => rb 105);
   Deliver 5 (fun _ => rb 106); Deliver 1 (fun _ => rb 107); Deliver 3 (fun _ => rb 108)].

Example C02_example :
  good_schedule toy ex_setup ex_acts /\ admissible toy ex_setup (start toy ex_setup) spec0 ex_acts /\
  (* and these are the results *)
  map (fun n => snd (fst (perform toy (st_peer ex_setup)
         (run toy ex_setup (start toy ex_setup) (firstn n ex_acts)) (nth n ex_acts (Send SA [])))))
      [3; 6; 7; 9; 10; 11; 12; 13]%nat
  = [Ok [3]; Ok [1]; Ok []; Err EInvalidMessage; Err EProto; Ok [4;5;6]; Ok [2;2]; Ok [10]].
Proof.
  split; [|split].
  - split; [cbn; lia|]. apply nodupb_ok. vm_compute. reflexivity.
  - assert (W : forall l, wfbb l = true -> wfb l) by exact wfbb_ok.
    unfold ex_acts.
    repeat (match goal with
     | |- admissible _ _ _ _ [] => exact I
     | |- admissible _ _ _ _ (_ :: _) => split
     | |- assumed _ _ _ _ (Send _ _) => split; [vm_compute; congruence|split; [apply W; reflexivity|reflexivity]]
     | |- assumed _ _ _ _ (Inject _ _ _ _) => vm_compute; split; [eexists; reflexivity|constructor]
     | |- assumed _ _ _ _ (Deliver _ _) => split; [reflexivity|first [left; vm_compute; reflexivity | right; left; split; [exact ex_no_history|vm_compute; reflexivity]]]
     end).
  - vm_compute. reflexivity.
Qed.

(* C03. A encrypts the texts pts in a row; B receives any of them in any order (each at most once,
   none more than 2000 beyond the highest one received so far) and decrypts each to its text. *)
Theorem C03_any_order : forall C, crypto_ok C -> forall st, setup_ok C st ->
  forall pts (arr : list (nat * (nat -> bytes))),
  Forall (fun pt => wfb pt /\ zlen pt < 2 ^ 60) pts ->
  Forall (fun a => length (snd a 0%nat) = 32%nat) arr ->
  order_ok (length pts) (map fst arr) ->
  Z.of_nat (length pts + length arr) < 2 ^ 32 ->
  NoDup (basepub C (st_spk st) :: basepub C (clamp (st_rratchet st))
         :: map (fun a => basepub C (clamp (snd a 0%nat))) arr) ->
  forall pre j rnd post, arr = pre ++ (j, rnd) :: post ->
  exists pt l, nth_error pts j = Some pt /\
    perform C (st_peer st) (run C st (start C st) (sends pts ++ arrivals pre)) (Deliver j rnd)
    = (SB, Ok pt, l).
Proof. exact any_order. Qed.
Print Assumptions C03_any_order.

Definition ex_pts : list bytes := [[1]; [2; 2]; []; [4]].
Definition ex_arr : list (nat * (nat -> bytes)) :=
  [(2%nat, fun _ => rb 101); (0%nat, fun _ => rb 102); (3%nat, fun _ => rb 103); (1%nat, fun _ => rb 104)].
Example C03_example :
  Forall (fun pt => wfb pt /\ zlen pt < 2 ^ 60) ex_pts /\
  Forall (fun a => length (snd a 0%nat) = 32%nat) ex_arr /\
  order_ok (length ex_pts) (map fst ex_arr) /\
  NoDup (basepub toy (st_spk ex_setup) :: basepub toy (clamp (st_rratchet ex_setup))
         :: map (fun a => basepub toy (clamp (snd a 0%nat))) ex_arr).
Proof.
  split; [|split; [|split]].
  - repeat (constructor; [split; [apply wfbb_ok; reflexivity|reflexivity]|]). constructor.
  - repeat constructor.
  - split; [|split].
    + repeat (constructor; [cbn; intuition discriminate|]). constructor.
    + cbn. intros j H. intuition lia.
    + intros pre j post H. assert (In j (map fst ex_arr)) by (rewrite H, in_app_iff; right; now left).
      cbn in H0. intuition lia.
  - apply nodupb_ok. vm_compute. reflexivity.
Qed.
