(* C59 group credentials stay usable over time: they do not. *)
From Coq Require Import ZArith List Lia Bool.
From Verif Require Import Bytes Res Credentials.
Import ListNotations.
Open Scope Z_scope.

(* ---- what the theorems speak about ---- *)

(* a server that is always reachable and gives out one credential for each day asked for *)
Definition honest (serve : Z -> Z -> reply) : Prop :=
  forall a b, exists l, serve a b = RCreds l /\ forall d, (exists x, In (d, x) l) <-> a <= d <= b.

Definition is_for (day : Z) (r : res credential) : Prop := exists x, r = Ok (day, x).

(* ---- proofs ---- *)

Lemma find_for (l : list credential) day : (exists x, In (day, x) l) -> exists x, find (fun y : credential => fst y =? day) l = Some (day, x).
Proof.
  intros [x H]. induction l as [|[d y] l IH]; [destruct H|]. cbn [find fst]. destruct (d =? day) eqn:E.
  - apply Z.eqb_eq in E. subst d. exists y. reflexivity.
  - destruct H as [[= -> ->]|H]; [rewrite Z.eqb_refl in E; discriminate|auto].
Qed.
Lemma find_not (l : list credential) day : ~ (exists x, In (day, x) l) -> find (fun y : credential => fst y =? day) l = None.
Proof.
  intros H. destruct (find _ l) as [[d x]|] eqn:F; [|reflexivity]. apply find_some in F. destruct F as [I E].
  cbn [fst] in E. apply Z.eqb_eq in E. subst d. elim H. now exists x.
Qed.

(* Once anything is cached, it is never replaced. *)
Theorem C59_cache_never_refreshed : forall serve days l, snd (run serve days (Some l)) = Some l.
Proof.
  intros serve days l. induction days as [|d t IH]; [reflexivity|]. cbn [run]. unfold GetCredentialForToday, GetCredentialForRedemption.
  destruct (run serve t (Some l)) as [r c]. cbn [snd] in *. exact IH.
Qed.
Print Assumptions C59_cache_never_refreshed.

Lemma run_cached serve days l : fst (run serve days (Some l)) =
  map (fun d => match find (fun x : credential => fst x =? d) l with Some x => Ok x | None => Err ENotFound end) days.
Proof.
  induction days as [|d t IH]; [reflexivity|]. cbn [run map]. unfold GetCredentialForToday, GetCredentialForRedemption.
  destruct (run serve t (Some l)) as [r c]. cbn [fst] in *. now rewrite IH.
Qed.

(* Exactly when a credential is obtained, over all later days of the process: up to seven days after the
   first request, and never again. *)
Theorem C59_exactly_a_week : forall serve, honest serve -> forall day0 days,
  exists r0 rs, fst (run serve (day0 :: days) None) = r0 :: rs /\ is_for day0 r0 /\
    Forall2 (fun d r => (day0 <= d <= day0 + 7 -> is_for d r) /\ (~ day0 <= d <= day0 + 7 -> r = Err ENotFound)) days rs.
Proof.
  intros serve H day0 days. destruct (H day0 (day0 + 7)) as (l & S & D).
  cbn [run]. unfold GetCredentialForToday, GetCredentialForRedemption, GetGroupAuthCredentials. rewrite S.
  destruct (find_for l day0) as [x F]; [apply D; lia|]. rewrite F.
  pose proof (run_cached serve days l) as R. destruct (run serve days (Some l)) as [rs c]. cbn [fst] in *.
  eexists. eexists. split; [reflexivity|]. split; [now exists x|]. rewrite R. clear R.
  induction days as [|d days IH]; cbn [map]; constructor; [|exact IH]. split.
  - intros L. destruct (find_for l d) as [y Fy]; [now apply D|]. rewrite Fy. now exists y.
  - intros L. rewrite find_not; [reflexivity|]. intros X. apply D in X. contradiction.
Qed.
Print Assumptions C59_exactly_a_week.

(* One undecodable answer makes every later request fail, whatever the server does afterwards. *)
Theorem C59_garbage_is_for_ever : forall serve serve' day0 days,
  serve day0 (day0 + 7) = RGarbage ->
  let c := snd (GetCredentialForToday serve day0 None) in
  Forall (fun r => r = Err ENotFound) (fst (run serve' days c)).
Proof.
  intros serve serve' day0 days G c. unfold c, GetCredentialForToday, GetCredentialForRedemption, GetGroupAuthCredentials.
  rewrite G. cbn [snd]. rewrite run_cached. cbn [find]. apply Forall_forall. intros r X. apply in_map_iff in X.
  now destruct X as (d & <- & _).
Qed.
Print Assumptions C59_garbage_is_for_ever.

(* A client running for eight days. *)
Definition ex_serve (a b : Z) : reply := RCreds (map (fun i => (a + Z.of_nat i, [1; 2; 3])) (seq 0 (Z.to_nat (b - a + 1)))).
Lemma ex_honest : honest ex_serve.
Proof.
  intros a b. eexists. split; [reflexivity|]. intros d. split.
  - intros [x H]. apply in_map_iff in H. destruct H as (i & [= <- <-] & I). apply in_seq in I. lia.
  - intros L. exists [1; 2; 3]. apply in_map_iff. exists (Z.to_nat (d - a)). split; [f_equal; lia|]. apply in_seq. lia.
Qed.
Theorem C59_always_obtained_refuted : exists serve day0 days, honest serve /\ Forall (fun d => day0 <= d) days /\
  fst (run serve (day0 :: days) None) = [Ok (20000, [1; 2; 3]); Ok (20007, [1; 2; 3]); Err ENotFound; Err ENotFound].
Proof.
  exists ex_serve, 20000, [20007; 20008; 20100]. split; [exact ex_honest|].
  split; [repeat constructor; lia|]. vm_compute. reflexivity.
Qed.
Print Assumptions C59_always_obtained_refuted.
