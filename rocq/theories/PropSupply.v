(* C228: what the server can give to those who write for the first time. Keys are uploaded by registerDevice alone
   (textsecure.go 445-456; registerPreKeys of server.go 550-565 has no other caller), nothing asks the server how many are left and
   nothing makes another signed prekey. *)
From Coq Require Import ZArith List Lia Bool.
From Verif Require Import Bytes Res Crypto Session RecordCodec Storage StorageProofs Encodings PreKeyGen PropPreKeys Startup PropStartup Examples.
Import ListNotations.
Open Scope Z_scope.

(* the world: what the client does, and others who ask the server for keys in order to write for the first time *)
Inductive wev := Client (e : ev) | Ask.
Fixpoint client_events (w : list wev) : list ev :=
  match w with [] => [] | Client e :: t => e :: client_events t | Ask :: t => client_events t end.
(* the server: the keys it was told last; every one-time key is given away once *)
Definition srv : Type := option (spk_rec * list entity).
Fixpoint answers (s : srv) (w : list wev) : list (option (spk_rec * option entity)) :=
  match w with
  | [] => []
  | Client (EvUpload _ ps spk) :: t => answers (Some (spk, ps_keys ps)) t
  | Client _ :: t => answers s t
  | Ask :: t => match s with
      | None => None :: answers None t
      | Some (spk, []) => Some (spk, None) :: answers (Some (spk, [])) t
      | Some (spk, k :: ks) => Some (spk, Some k) :: answers (Some (spk, ks)) t
      end
  end.
Definition one_time (a : option (spk_rec * option entity)) : bool := match a with Some (_, Some _) => true | _ => false end.
Definition asks (w : list wev) : nat := length (filter (fun x => match x with Ask => true | _ => false end) w).

Lemma client_app a b : client_events (a ++ b) = client_events a ++ client_events b.
Proof. induction a as [|[e|] a IH]; cbn [app client_events]; [reflexivity| |exact IH]. now rewrite IH. Qed.
Lemma quiet_answers w : Forall no_upload (client_events w) -> forall spk ks,
  answers (Some (spk, ks)) w = map (fun k => Some (spk, Some k)) (firstn (asks w) ks) ++ repeat (Some (spk, None)) (asks w - length ks).
Proof.
  induction w as [|[e|] w IH]; intros F spk ks; [reflexivity| |].
  - cbn [client_events] in F. inversion F as [|? ? X Y]; subst. cbn [answers]. change (asks (Client e :: w)) with (asks w).
    destruct e; try (apply IH; exact Y). destruct X.
  - cbn [client_events] in F. cbn [answers]. change (asks (Ask :: w)) with (S (asks w)). destruct ks as [|k ks].
    + rewrite (IH F). rewrite !firstn_nil. cbn [map app length]. rewrite !Nat.sub_0_r. reflexivity.
    + rewrite (IH F). cbn [firstn map app length]. rewrite Nat.sub_succ. reflexivity.
Qed.
Lemma before_answers w : Forall no_upload (client_events w) -> answers None w = repeat None (asks w).
Proof.
  induction w as [|[e|] w IH]; intros F; [reflexivity| |].
  - cbn [client_events] in F. inversion F as [|? ? X Y]; subst. cbn [answers]. change (asks (Client e :: w)) with (asks w).
    destruct e; try (apply IH; exact Y). destruct X.
  - cbn [client_events] in F. cbn [answers]. change (asks (Ask :: w)) with (S (asks w)). rewrite (IH F). reflexivity.
Qed.
Lemma answers_upload w1 ik ps spk w2 s : Forall no_upload (client_events w1) ->
  answers s (w1 ++ Client (EvUpload ik ps spk) :: w2) = answers s w1 ++ answers (Some (spk, ps_keys ps)) w2.
Proof.
  revert s. induction w1 as [|[e|] w1 IH]; intros s F; [reflexivity| |].
  - cbn [client_events] in F. inversion F as [|? ? X Y]; subst. cbn [app answers]. destruct e; apply IH; exact Y.
  - cbn [client_events] in F. cbn [app answers]. destruct s as [[k [|e ks]]|]; cbn [app]; f_equal; apply IH; exact F.
Qed.
Lemma world_split w : (Forall no_upload (client_events w)) \/
  exists w1 ik ps spk w2, w = w1 ++ Client (EvUpload ik ps spk) :: w2 /\ Forall no_upload (client_events w1).
Proof.
  induction w as [|[e|] w IH]; [left; constructor| |].
  - assert (D : (exists ik ps spk, e = EvUpload ik ps spk) \/ no_upload e) by (destruct e; cbn; eauto).
    destruct D as [(ik & ps & spk & ->)|N]; [right; exists [], ik, ps, spk, w; split; [reflexivity|constructor]|].
    destruct IH as [F|(w1 & ik & ps & spk & w2 & -> & F)]; [left; constructor; assumption|].
    right. exists (Client e :: w1), ik, ps, spk, w2. split; [reflexivity|]. constructor; assumption.
  - destruct IH as [F|(w1 & ik & ps & spk & w2 & -> & F)]; [left; exact F|]. right. exists (Ask :: w1), ik, ps, spk, w2. split; [reflexivity|exact F].
Qed.
Lemma uploads_zero l : uploads l = 0%nat -> Forall no_upload l.
Proof.
  unfold uploads. induction l as [|e l IH]; intros H; [constructor|]. cbn [filter] in H.
  destruct e; try (constructor; [exact Logic.I|apply IH; exact H]). discriminate H.
Qed.

(* Whatever the client does in its life and whenever others ask, the server has one set of keys to give: those who ask before it
   came get none, the others get the one-time keys of that set one after the other, all with the same signed prekey; once
   those are used up, nobody ever gets one again. *)
Theorem C228_supply : forall C cf c d w, crypto_ok C -> conf_ok cf -> life C cf good_in ([], c) d (client_events w) ->
  answers None w = repeat None (asks w) \/
  exists w1 ik ps spk w2, w = w1 ++ Client (EvUpload ik ps spk) :: w2 /\
    answers None w = repeat None (asks w1) ++ map (fun k => Some (spk, Some k)) (firstn (asks w2) (ps_keys ps)) ++
      repeat (Some (spk, None)) (asks w2 - length (ps_keys ps)).
Proof.
  intros C cf c d w OK CF H. destruct (world_split w) as [F|(w1 & ik & ps & spk & w2 & -> & F)]; [left; apply before_answers; exact F|].
  right. exists w1, ik, ps, spk, w2. split; [reflexivity|].
  pose proof (j_once _ _ _ _ _ (life_J C cf OK CF False good_in c d _ ltac:(auto) ltac:(tauto) H)) as O.
  rewrite client_app in O. cbn [client_events] in O. rewrite uploads_app in O.
  change (EvUpload ik ps spk :: client_events w2) with ([EvUpload ik ps spk] ++ client_events w2) in O.
  rewrite uploads_app in O. change (uploads [EvUpload ik ps spk]) with 1%nat in O.
  assert (Z0 : uploads (client_events w2) = 0%nat) by lia.
  rewrite answers_upload by exact F. rewrite before_answers by exact F. f_equal. apply quiet_answers. apply uploads_zero. exact Z0.
Qed.
Print Assumptions C228_supply.

(* the signed prekey is never renewed *)
Theorem C228_signed_same : forall C cf c d w a b s t, crypto_ok C -> conf_ok cf -> life C cf good_in ([], c) d (client_events w) ->
  In (Some (s, a)) (answers None w) -> In (Some (t, b)) (answers None w) -> s = t.
Proof.
  intros C cf c d w a b s t OK CF H A B.
  destruct (C228_supply C cf c d w OK CF H) as [E|(w1 & ik & ps & spk & w2 & _ & E)]; rewrite E in A, B.
  { apply repeat_spec in A. discriminate A. }
  assert (G : forall x y, In (Some (x, y)) (repeat None (asks w1) ++ map (fun k => Some (spk, Some k)) (firstn (asks w2) (ps_keys ps)) ++
      repeat (Some (spk, None)) (asks w2 - length (ps_keys ps))) -> x = spk).
  { intros x y X. apply in_app_or in X as [X|X]; [apply repeat_spec in X; discriminate X|]. apply in_app_or in X as [X|X].
    - apply in_map_iff in X as (k & [= <- _] & _). reflexivity.
    - apply repeat_spec in X. injection X as -> _. reflexivity. }
  now rewrite (G _ _ A), (G _ _ B).
Qed.
Print Assumptions C228_signed_same.

(* The client registers, with 100 one-time keys; 100 people ask for them; the client is started again; the next who asks gets no
   one-time key. *)
Definition ex_world (l1 l2 : list ev) : list wev := map Client l1 ++ repeat Ask 100 ++ map Client l2 ++ [Ask].
Lemma client_map l : client_events (map Client l) = l.
Proof. induction l as [|e l IH]; [reflexivity|]. cbn [map client_events]. now rewrite IH. Qed.
Lemma client_asks n : client_events (repeat Ask n) = [].
Proof. induction n; [reflexivity|exact IHn]. Qed.
Lemma ex_world_client l1 l2 : client_events (ex_world l1 l2) = l1 ++ l2.
Proof. unfold ex_world. rewrite !client_app, !client_map, client_asks. cbn [client_events app]. now rewrite app_nil_r. Qed.
Lemma two_starts C cf I1 I2 c r1 d1 l1 r2 d2 l2 : good_in I1 -> good_in I2 ->
  start C cf I1 ([], c) = (r1, d1, l1) -> start C cf I2 d1 = (r2, d2, l2) ->
  life C cf good_in ([], c) d2 (l1 ++ l2).
Proof.
  intros G1 G2 E1 E2. pose proof (start_traced C cf I1 _ _ _ _ E1) as X. pose proof (start_traced C cf I2 _ _ _ _ E2) as Y.
  pose proof (life_start C cf good_in ([], c) _ _ I1 r1 d1 l1 (length l1) (life_new C cf good_in ([], c)) G1 E1) as A.
  rewrite firstn_all in A. cbn [app] in A. rewrite X in A.
  pose proof (life_start C cf good_in ([], c) _ _ I2 r2 d2 l2 (length l2) A G2 E2) as B. rewrite firstn_all, Y in B. exact B.
Qed.

Theorem C228_supply_refuted : exists I1 I2 c k1 d1 l1 k2 d2 l2, good_in I1 /\ good_in I2 /\
  start toy ex_conf I1 ([], c) = (Ok k1, d1, l1) /\ start toy ex_conf I2 d1 = (Ok k2, d2, l2) /\
  life toy ex_conf good_in ([], c) d2 (client_events (ex_world l1 l2)) /\
  map one_time (answers None (ex_world l1 l2)) = repeat true 100 ++ [false].
Proof.
  exists ex_first, ex_again, ex_cfg, (Some (ex_kps' 1)), ex_disk1, (snd (go ex_first ([], ex_cfg))), (Some (ex_kps' 1)), ex_disk2, (snd (go ex_again ex_disk1)).
  assert (E1 : start toy ex_conf ex_first ([], ex_cfg) = (Ok (Some (ex_kps' 1)), ex_disk1, snd (go ex_first ([], ex_cfg)))).
  { unfold ex_disk1. apply go_is. vm_compute. reflexivity. }
  assert (E2 : start toy ex_conf ex_again ex_disk1 = (Ok (Some (ex_kps' 1)), ex_disk2, snd (go ex_again ex_disk1))).
  { unfold ex_disk2. apply go_is. vm_compute. reflexivity. }
  split; [exact ex_first_good|]. split; [exact ex_again_good|]. split; [exact E1|]. split; [exact E2|].
  split; [rewrite ex_world_client; exact (two_starts _ _ _ _ _ _ _ _ _ _ _ ex_first_good ex_again_good E1 E2)|].
  vm_compute. reflexivity.
Qed.
Print Assumptions C228_supply_refuted.
