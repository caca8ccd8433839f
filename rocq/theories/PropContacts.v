(* C58 the contact table is keyed consistently; C80 contacts survive a restart; C81 synchronising contacts
   keeps what was learned; C84 refreshing a profile changes that contact only. *)
From Coq Require Import ZArith List Lia Bool Permutation.
From Verif Require Import Bytes Res Crypto Gcm Decimal Encodings PropEncodings Regex Profile Contacts.
Import ListNotations.
Open Scope Z_scope.

(* ---- what the theorems speak about ---- *)

(* a text that counts as a UUID: not empty, not "0", not with a zero byte at both ends *)
Definition proper (u : bytes) : Prop :=
  u <> [] /\ u <> [48] /\ ~ (exists m, u = [0] \/ u = 0 :: m ++ [0]).
(* the key a contact is filed under *)
Definition filed (c : person) (k : bytes) : Prop :=
  (proper (p_uuid c) /\ k = p_uuid c) \/ (~ proper (p_uuid c) /\ k = p_tel c).
(* two contacts that differ at most in the profile key *)
Definition same_but_key (c r : person) : Prop :=
  p_uuid r = p_uuid c /\ p_tel r = p_tel c /\ p_name r = p_name c /\ p_username r = p_username c /\
  p_registered r = p_registered c /\ p_hasavatar r = p_hasavatar c /\ p_avatar r = p_avatar c /\
  p_about r = p_about c /\ p_emoji r = p_emoji c /\ p_rest r = p_rest c.
(* every contact is found under the key it is filed under *)
Definition consistent (t : table) : Prop := forall k c, In (k, c) t -> filed c k.
Definition keys_unique (t : table) : Prop := NoDup (map fst t).
(* the file holds the table, in any order *)
Definition saved (s : cstate) : Prop := exists t, Permutation t (cs_table s) /\ cs_file s = map snd t.

(* a history of updates: contact, new key, and how writing the file went *)
Definition updates (l : list (bytes * bytes * option (table -> table))) (s : cstate) : cstate :=
  fold_left (fun s u => fst (UpdateProfileKey (fst (fst u)) (snd (fst u)) (snd u) s)) l s.
(* the last key given for k, if any *)
Definition last_key (k : bytes) (l : list (bytes * bytes * option (table -> table))) : option bytes :=
  fold_left (fun o u => if beq (fst (fst u)) k then Some (snd (fst u)) else o) l None.

(* ---- proofs ---- *)

Lemma lookup_put k k' c t : lookup k (put k' c t) = if beq k k' then Some c else lookup k t.
Proof.
  induction t as [|[x d] r IH]; cbn [put lookup]; [reflexivity|].
  destruct (beq k' x) eqn:E.
  - apply beq_eq in E. subst x. cbn [lookup]. destruct (beq k k'); reflexivity.
  - cbn [lookup]. rewrite IH. destruct (beq k x) eqn:F; [|reflexivity]. apply beq_eq in F. subst x.
    rewrite beq_sym, E. reflexivity.
Qed.
Lemma lookup_put_same k c t : lookup k (put k c t) = Some c.
Proof. rewrite lookup_put, beq_refl. reflexivity. Qed.
Lemma lookup_put_other k k' c t : k <> k' -> lookup k (put k' c t) = lookup k t.
Proof. intros H. rewrite lookup_put. apply beq_neq in H. rewrite H. reflexivity. Qed.

Lemma put_keys k c t x : In x (map fst (put k c t)) <-> x = k \/ In x (map fst t).
Proof.
  induction t as [|[y d] r IH]; cbn [put map fst In]; [intuition|].
  destruct (beq k y) eqn:E; cbn [map fst In].
  - apply beq_eq in E. subst y. intuition.
  - rewrite IH. intuition.
Qed.
Lemma put_unique k c t : keys_unique t -> keys_unique (put k c t).
Proof.
  unfold keys_unique. induction t as [|[y d] r IH]; cbn [put map fst]; intros H.
  - constructor; [intros []|constructor].
  - destruct (beq k y) eqn:E; cbn [map fst].
    + apply beq_eq in E. subst y. exact H.
    + apply NoDup_cons_iff in H. destruct H as [N H]. constructor; [|auto]. rewrite put_keys. intros [->|X]; [|contradiction].
      rewrite beq_refl in E. discriminate.
Qed.
Lemma in_put k c t x d : keys_unique t -> In (x, d) (put k c t) -> (x = k /\ d = c) \/ (x <> k /\ In (x, d) t).
Proof.
  unfold keys_unique. induction t as [|[y e] r IH]; cbn [put map fst In]; intros U H.
  - destruct H as [[= <- <-]|[]]. now left.
  - apply NoDup_cons_iff in U. destruct U as [N U]. destruct (beq k y) eqn:E; cbn [In] in H.
    + apply beq_eq in E. subst y. destruct H as [[= <- <-]|H]; [now left|]. right. split; [|now right].
      intros ->. apply N. apply in_map_iff. now exists (k, d).
    + destruct H as [[= <- <-]|H].
      * right. split; [|now left]. intros ->. rewrite beq_refl in E. discriminate.
      * destruct (IH U H) as [X|[X Y]]; [now left|right; split; [exact X|now right]].
Qed.

Lemma lookup_in k c t : lookup k t = Some c -> In (k, c) t.
Proof.
  induction t as [|[y d] r IH]; cbn [lookup]; [discriminate|]. destruct (beq k y) eqn:E.
  - apply beq_eq in E. subst y. intros [= ->]. now left.
  - intros H. right. auto.
Qed.
Lemma in_lookup k c t : keys_unique t -> In (k, c) t -> lookup k t = Some c.
Proof.
  unfold keys_unique. induction t as [|[y d] r IH]; cbn [lookup map fst In]; intros U H; [contradiction|].
  apply NoDup_cons_iff in U. destruct U as [N U]. destruct H as [[= -> ->]|H]; [now rewrite beq_refl|].
  destruct (beq k y) eqn:E; [|auto]. apply beq_eq in E. subst y. elim N. apply in_map_iff. now exists (k, c).
Qed.

Lemma last_snoc {A} (m : list A) x d : last (m ++ [x]) d = x.
Proof. induction m as [|a m IH]; [reflexivity|]. cbn [app last]. rewrite IH. destruct (m ++ [x]) eqn:E; [|reflexivity]. destruct m; discriminate. Qed.

Lemma ends_zero u : u <> [] -> ((hd 0 u =? 0) && (last u 0 =? 0) = true <-> exists m, u = [0] \/ u = 0 :: m ++ [0]).
Proof.
  intros N. rewrite andb_true_iff, !Z.eqb_eq. split.
  - intros [H L]. destruct u as [|a t]; [congruence|]. cbn [hd] in H. subst a.
    destruct t as [|b t]; [exists []; now left|]. exists (removelast (b :: t)). right.
    rewrite (app_removelast_last 0 (l := b :: t)) at 1 by discriminate. cbn [last] in L |- *.
    f_equal. f_equal. f_equal. exact L.
  - intros (m & [->| ->]); [split; reflexivity|]. split; [reflexivity|].
    change (0 :: m ++ [0]) with ((0 :: m) ++ [0]). apply last_snoc.
Qed.

Lemma proper_dec u : negb (beq u []) && negb (beq u [48]) && (negb (hd 0 u =? 0) || negb (last u 0 =? 0)) = true <-> proper u.
Proof.
  rewrite <- negb_andb, !andb_true_iff, !negb_true_iff. unfold proper. rewrite (beq_neq u []), (beq_neq u [48]).
  split.
  - intros [[A B] D]. repeat split; auto. intros E. apply (ends_zero u A) in E. congruence.
  - intros (A & B & D). repeat split; auto. destruct ((hd 0 u =? 0) && (last u 0 =? 0)) eqn:E; [|reflexivity].
    elim D. now apply ends_zero.
Qed.

Lemma load_key_filed c : filed c (load_key c).
Proof.
  unfold filed, load_key. cbv zeta.
  destruct (negb (beq (p_uuid c) []) && negb (beq (p_uuid c) [48]) && (negb (hd 0 (p_uuid c) =? 0) || negb (last (p_uuid c) 0 =? 0))) eqn:E.
  - left. split; [now apply proper_dec|reflexivity].
  - right. split; [|reflexivity]. intros P. apply proper_dec in P. congruence.
Qed.
Lemma filed_unique c k k' : filed c k -> filed c k' -> k = k'.
Proof. unfold filed. intros [[A ->]|[A ->]] [[B ->]|[B ->]]; try reflexivity; contradiction. Qed.

Lemma load_app a b t : LoadContacts (a ++ b) t = LoadContacts b (LoadContacts a t).
Proof. apply fold_left_app. Qed.

Lemma load_other b : forall k t, (forall d, In d b -> ~ filed d k) -> lookup k (LoadContacts b t) = lookup k t.
Proof.
  induction b as [|d b IH]; intros k t H; [reflexivity|].
  change (LoadContacts (d :: b) t) with (LoadContacts b (put (load_key d) d t)).
  rewrite IH by (intros x Hx; apply H; now right). apply lookup_put_other.
  intros ->. apply (H d); [now left|apply load_key_filed].
Qed.

(* The key a contact is found under after loading: its UUID, or its number if it has none. If several are
   filed under one key, the last one counts. *)
Theorem C58_load_finds : forall a c b k t, filed c k -> (forall d, In d b -> ~ filed d k) ->
  lookup k (LoadContacts (a ++ c :: b) t) = Some c.
Proof.
  intros a c b k t F N. rewrite load_app.
  change (LoadContacts (c :: b) (LoadContacts a t)) with (LoadContacts b (put (load_key c) c (LoadContacts a t))).
  rewrite load_other by exact N. rewrite (filed_unique c k (load_key c) F (load_key_filed c)). apply lookup_put_same.
Qed.
Print Assumptions C58_load_finds.

Theorem C58_load_only : forall cs k c, lookup k (LoadContacts cs []) = Some c -> In c cs /\ filed c k.
Proof.
  intros cs k c. assert (G : forall t, lookup k (LoadContacts cs t) = Some c -> (In c cs /\ filed c k) \/ lookup k t = Some c).
  { induction cs as [|d cs IH]; intros t H; [now right|].
    change (LoadContacts (d :: cs) t) with (LoadContacts cs (put (load_key d) d t)) in H.
    destruct (IH _ H) as [[A B]|L]; [left; split; [now right|exact B]|].
    rewrite lookup_put in L. destruct (beq k (load_key d)) eqn:E; [|now right].
    apply beq_eq in E. injection L as ->. left. split; [now left|]. rewrite E. apply load_key_filed. }
  intros H. destruct (G [] H) as [X|X]; [exact X|discriminate].
Qed.
Print Assumptions C58_load_only.

Lemma update_table src key w s : cs_table (fst (UpdateProfileKey src key w s)) =
  put src (match lookup src (cs_table s) with Some c => with_pkey key c
           | None => mkPerson src [] key src [] false false [] [] [] [] end) (cs_table s).
Proof. unfold UpdateProfileKey, WriteContactsToPath. destruct w; reflexivity. Qed.

(* Updating a profile key changes that key and nothing else. *)
Theorem C58_update : forall src key w s s' r, UpdateProfileKey src key w s = (s', r) ->
  (forall k, k <> src -> lookup k (cs_table s') = lookup k (cs_table s)) /\
  exists d, lookup src (cs_table s') = Some d /\ p_pkey d = key /\
    match lookup src (cs_table s) with
    | Some c => same_but_key c d
    | None => p_uuid d = src /\ p_tel d = [] /\ p_name d = src
    end.
Proof.
  intros src key w s s' r E. pose proof (update_table src key w s) as T. rewrite E in T. cbn [fst] in T. rewrite T. split.
  - intros k N. apply lookup_put_other. exact N.
  - eexists. split; [apply lookup_put_same|]. destruct (lookup src (cs_table s)) as [c|].
    + split; [reflexivity|]. unfold same_but_key, with_pkey. cbn. repeat split.
    + cbn. repeat split.
Qed.
Print Assumptions C58_update.

Lemma same_refl c : same_but_key c c.
Proof. unfold same_but_key. repeat split. Qed.
Lemma same_trans a b c : same_but_key a b -> same_but_key b c -> same_but_key a c.
Proof.
  unfold same_but_key. intros (A1 & A2 & A3 & A4 & A5 & A6 & A7 & A8 & A9 & A10) (B1 & B2 & B3 & B4 & B5 & B6 & B7 & B8 & B9 & B10).
  repeat split; congruence.
Qed.

(* The same over every history of updates, whether or not the file could be written. *)
Theorem C58_update_history : forall l s k,
  match lookup k (cs_table s) with
  | Some c => exists d, lookup k (cs_table (updates l s)) = Some d /\ same_but_key c d /\
      p_pkey d = match last_key k l with Some x => x | None => p_pkey c end
  | None => match last_key k l with
            | Some x => exists d, lookup k (cs_table (updates l s)) = Some d /\ p_uuid d = k /\ p_tel d = [] /\ p_name d = k /\ p_pkey d = x
            | None => lookup k (cs_table (updates l s)) = None
            end
  end.
Proof.
  intros l s k. induction l as [|[[src key] w] l IH] using rev_ind.
  - cbn. destruct (lookup k (cs_table s)) as [c|]; [|reflexivity]. exists c. split; [reflexivity|]. split; [apply same_refl|reflexivity].
  - unfold updates, last_key in *. rewrite !fold_left_app. cbn [fold_left fst snd].
    set (s1 := fold_left _ l s) in *. set (lk := fold_left _ l None) in *. clearbody lk.
    destruct (UpdateProfileKey src key w s1) as [s2 r] eqn:E. cbn [fst].
    destruct (C58_update _ _ _ _ _ _ E) as [O (d & D1 & D2 & D3)].
    destruct (beq src k) eqn:B.
    + apply beq_eq in B. subst src. destruct (lookup k (cs_table s)) as [c|].
      * destruct IH as (d0 & I1 & I2 & I3). rewrite I1 in D3. exists d. split; [exact D1|]. split; [|exact D2].
        now apply (same_trans c d0).
      * exists d. split; [exact D1|]. destruct lk as [x|].
        -- destruct IH as (d0 & I1 & I2 & I3 & I4 & I5). rewrite I1 in D3.
           destruct D3 as (S1 & S2 & S3 & _). repeat split; congruence.
        -- rewrite IH in D3. destruct D3 as (S1 & S2 & S3). repeat split; assumption.
    + apply beq_neq in B. rewrite (O k) by (intros ->; now apply B). exact IH.
Qed.
Print Assumptions C58_update_history.

(* ---- C80: restarting ---- *)

Lemma load_unique cs : forall t, keys_unique t -> keys_unique (LoadContacts cs t).
Proof.
  induction cs as [|c cs IH]; intros t U; [exact U|].
  change (LoadContacts (c :: cs) t) with (LoadContacts cs (put (load_key c) c t)). apply IH. now apply put_unique.
Qed.

(* A table in which every contact is found under the key it is filed under is the same after a restart. *)
Theorem C80_restart : forall s, keys_unique (cs_table s) -> consistent (cs_table s) -> saved s ->
  forall k, lookup k (cs_table (restart s)) = lookup k (cs_table s).
Proof.
  intros s U K (t & P & F) k. unfold restart. cbn [cs_table]. rewrite F.
  assert (Ut : keys_unique t).
  { unfold keys_unique in *. apply (Permutation_NoDup (l := map fst (cs_table s))); [|exact U].
    apply Permutation_map. now apply Permutation_sym. }
  assert (Kt : consistent t).
  { intros x c H. apply K. now apply (Permutation_in (l := t)). }
  assert (L : forall x, lookup x t = lookup x (cs_table s)).
  { intros x. destruct (lookup x t) as [c|] eqn:E.
    - symmetry. apply in_lookup; [exact U|]. apply (Permutation_in (l := t) _ P). now apply lookup_in.
    - destruct (lookup x (cs_table s)) as [c|] eqn:E'; [|reflexivity]. apply lookup_in in E'.
      apply (Permutation_in (l := cs_table s) (l' := t) _ (Permutation_sym P)) in E'. apply (in_lookup _ _ _ Ut) in E'. congruence. }
  rewrite <- L. clear L P F U K s.
  destruct (lookup k t) as [c|] eqn:E.
  - apply lookup_in in E. destruct (in_split _ _ E) as (a & b & ->). rewrite map_app. cbn [map snd].
    apply C58_load_finds; [apply (Kt k c E)|].
    intros d Hd Fd. apply in_map_iff in Hd. destruct Hd as ([y d'] & Hd & I). cbn [snd] in Hd. subst d'.
    assert (y = k).
    { apply (filed_unique d); [|exact Fd]. apply Kt. apply in_or_app. right. now right. }
    subst y. unfold keys_unique in Ut. rewrite map_app in Ut. cbn [map fst] in Ut. apply NoDup_remove_2 in Ut.
    apply Ut. apply in_or_app. right. apply in_map_iff. now exists (k, d).
  - destruct (lookup k (LoadContacts (map snd t) [])) as [c|] eqn:X; [|reflexivity].
    apply C58_load_only in X. destruct X as [I Fc]. apply in_map_iff in I. destruct I as ([y d] & Hd & I).
    cbn [snd] in Hd. subst d. assert (y = k) by (apply (filed_unique c); [now apply Kt|exact Fc]). subst y.
    apply (in_lookup _ _ _ Ut) in I. congruence.
Qed.
Print Assumptions C80_restart.

(* Loading and updating profile keys keep the table in that form, as long as a new contact's name is a proper
   UUID or empty. *)
Theorem C80_load_consistent : forall cs, keys_unique (LoadContacts cs []) /\ consistent (LoadContacts cs []).
Proof.
  intros cs. assert (U : keys_unique (LoadContacts cs [])) by (apply load_unique; constructor). split; [exact U|].
  intros k c H. apply (in_lookup _ _ _ U) in H. now apply C58_load_only in H.
Qed.
Print Assumptions C80_load_consistent.

Theorem C80_update_consistent : forall src key w s, keys_unique (cs_table s) -> consistent (cs_table s) ->
  proper src \/ src = [] ->
  let s' := fst (UpdateProfileKey src key w s) in keys_unique (cs_table s') /\ consistent (cs_table s').
Proof.
  intros src key w s U K P s'. unfold s'. rewrite update_table. split; [now apply put_unique|].
  intros k c H. apply in_put in H; [|exact U]. destruct H as [[-> ->]|[_ H]]; [|now apply K].
  destruct (lookup src (cs_table s)) as [d|] eqn:E.
  - apply lookup_in in E. pose proof (K _ _ E) as X. unfold filed, with_pkey in *. exact X.
  - unfold filed. cbn [p_uuid p_tel]. destruct P as [P| ->]; [left; now split|]. right. split; [|reflexivity].
    intros (N & _). now apply N.
Qed.
Print Assumptions C80_update_consistent.

(* An update that is written, in whatever order the map is ranged over, is there after a restart. *)
Theorem C80_update_survives : forall src key order s s' r, keys_unique (cs_table s) -> consistent (cs_table s) ->
  proper src \/ src = [] -> (forall t, Permutation (order t) t) -> UpdateProfileKey src key (Some order) s = (s', r) ->
  r = Ok tt /\ (forall k, lookup k (cs_table (restart s')) = lookup k (cs_table s')) /\
  exists d, lookup src (cs_table (restart s')) = Some d /\ p_pkey d = key.
Proof.
  intros src key order s s' r U K P O H. pose proof (C80_update_consistent src key (Some order) s U K P) as (U' & K').
  destruct (C58_update src key (Some order) s s' r H) as (_ & d & D1 & D2 & _). rewrite H in U', K'. cbn [fst] in U', K'.
  assert (S : r = Ok tt /\ saved s').
  { unfold UpdateProfileKey, WriteContactsToPath in H. injection H as <- <-. split; [reflexivity|]. eexists. split; [apply O|reflexivity]. }
  destruct S as (-> & S). split; [reflexivity|]. pose proof (C80_restart s' U' K' S) as R. split; [exact R|]. exists d. rewrite R. auto.
Qed.
Print Assumptions C80_update_survives.

(* After a restart, whatever has the UUID of an unregistered number is filed under that UUID: of all of them
   one is left. *)
Theorem C80_unregistered_collapse : forall s k c,
  lookup k (cs_table (restart s)) = Some c -> p_uuid c = zero_uuid -> k = zero_uuid.
Proof.
  intros s k c H Z. unfold restart in H. cbn [cs_table] in H. apply C58_load_only in H. destruct H as [_ F].
  assert (P : proper (p_uuid c)).
  { rewrite Z. apply proper_dec. vm_compute. reflexivity. }
  destruct F as [[_ ->]|[N _]]; [exact Z|contradiction].
Qed.
Print Assumptions C80_unregistered_collapse.

(* Three contacts are loaded, two of them without a UUID; two profile keys arrive, one from someone unknown;
   the process restarts and finds everything under the same keys. *)
Definition cx_p (u t n : Z) : person := mkPerson (if u =? 0 then [48] else [u; u]) [43; t] [] [n] [] false false [] [] [] [].
Definition cx_s0 : cstate := mkCs (LoadContacts [cx_p 100 49 1; cx_p 0 50 2; cx_p 0 51 3] []) [].
Definition cx_s : cstate := updates [([100; 100], [7; 7], Some (fun t => t)); ([101; 101], [8], None); ([101; 101], [9], Some (fun t => rev t))] cx_s0.
Example C58_example :
  lookup [100; 100] (cs_table cx_s) = Some (with_pkey [7; 7] (cx_p 100 49 1))
  /\ lookup [43; 50] (cs_table cx_s) = Some (cx_p 0 50 2)
  /\ lookup [43; 51] (cs_table (restart cx_s)) = Some (cx_p 0 51 3)
  /\ lookup [101; 101] (cs_table (restart cx_s)) = lookup [101; 101] (cs_table cx_s)
  /\ GetContact [101; 101] cx_s = mkPerson [101; 101] [] [9] [101; 101] [] false false [] [] [] []
  /\ lookup [43; 49] (cs_table cx_s) = None.
Proof. vm_compute. auto 10. Qed.
Example C80_example : keys_unique (cs_table cx_s) /\ consistent (cs_table cx_s) /\ saved cx_s.
Proof.
  assert (X : keys_unique (cs_table cx_s) /\ consistent (cs_table cx_s)).
  { unfold cx_s, updates. cbn [fold_left fst snd].
    assert (Pa : proper [100; 100]) by (apply proper_dec; vm_compute; reflexivity).
    assert (Pb : proper [101; 101]) by (apply proper_dec; vm_compute; reflexivity).
    destruct (C80_load_consistent [cx_p 100 49 1; cx_p 0 50 2; cx_p 0 51 3]) as [U0 K0].
    destruct (C80_update_consistent [100; 100] [7; 7] (Some (fun t => t)) cx_s0 U0 K0 (or_introl Pa)) as [U1 K1].
    destruct (C80_update_consistent [101; 101] [8] None _ U1 K1 (or_introl Pb)) as [U2 K2].
    exact (C80_update_consistent [101; 101] [9] (Some (fun t => rev t)) _ U2 K2 (or_introl Pb)). }
  destruct X as [U K]. split; [exact U|]. split; [exact K|]. exists (rev (cs_table cx_s)). split; [apply Permutation_sym, Permutation_rev|].
  vm_compute. reflexivity.
Qed.
