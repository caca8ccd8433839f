(* C57 contact discovery queries are exact; C80 (continued), C81, C82, C83, C84: what synchronising contacts
   and refreshing a profile do to the contact table. *)
From Coq Require Import ZArith List Lia Bool Permutation.
From Verif Require Import Bytes Res Crypto Gcm Decimal Encodings PropEncodings Regex Profile Contacts PropContacts.
Import ListNotations.
Open Scope Z_scope.
Ltac Zify.zify_post_hook ::= Z.to_euclidean_division_equations.

(* ---- what the theorems speak about ---- *)

(* a number in international form, "+4917..." *)
Definition e164 (n : Z) : bytes := 43 :: udec n.
(* reading off the numbers of a query, eight bytes each, big-endian *)
Fixpoint slots8 (k : nat) (d : bytes) : list Z :=
  match k with O => [] | S k' => be_dec (firstn 8 d) :: slots8 k' (skipn 8 d) end.
(* contact c is the first one in cs with its number *)
Definition first_at (j : nat) (cs : list person) (c : person) : Prop :=
  nth_error cs j = Some c /\ forall i d, (i < j)%nat -> nth_error cs i = Some d -> p_tel d <> p_tel c.
(* r is c with the UUID u, registered unless u is the zero UUID *)
Definition identified (u : bytes) (c r : person) : Prop :=
  p_uuid r = u /\ p_registered r = negb (beq u zero_uuid) /\
  p_tel r = p_tel c /\ p_pkey r = p_pkey c /\ p_name r = p_name c /\ p_username r = p_username c /\
  p_hasavatar r = p_hasavatar c /\ p_avatar r = p_avatar c /\ p_about r = p_about c /\ p_emoji r = p_emoji c /\ p_rest r = p_rest c.

(* ---- the numbers of a query ---- *)

Lemma atoi_e164 n : 0 <= n < 2 ^ 63 -> atoi (e164 n) = Some n.
Proof.
  intros H. unfold e164, atoi. cbv zeta. pose proof (udec_ne n) as N. pose proof (undec_udec n ltac:(lia)) as U.
  destruct (udec n) as [|c t]; [congruence|]. rewrite U. rewrite (proj2 (Z.ltb_lt n (2 ^ 63))) by lia. reflexivity.
Qed.

Lemma address_e164 ns : Forall (fun n => 0 <= n < 2 ^ 63) ns ->
  addressData (map e164 ns) = Ok (concat (map (be_enc 8) ns)).
Proof.
  induction 1 as [|n ns H _ IH]; [reflexivity|]. cbn [map addressData concat]. rewrite atoi_e164 by exact H.
  rewrite IH. cbn [bind]. unfold toByteArray. rewrite Z.mod_small by lia. reflexivity.
Qed.

Lemma slots8_ok ns : Forall (fun n => 0 <= n < 2 ^ 63) ns -> slots8 (length ns) (concat (map (be_enc 8) ns)) = ns.
Proof.
  induction 1 as [|n ns H _ IH]; [reflexivity|]. cbn [length slots8 map concat].
  rewrite firstn_app_exact, skipn_app_exact by apply be_enc_length. rewrite IH. f_equal. apply be_dec_enc.
  change (256 ^ Z.of_nat 8) with (2 ^ 64). lia.
Qed.

(* The query for international numbers: the nonce, then every number in order in eight bytes, from which the
   numbers are recovered. *)
Theorem C57_query_exact : forall ns nonce, Forall (fun n => 0 <= n < 2 ^ 63) ns ->
  exists d, buildQueryDataWithNonce (map e164 ns) nonce = Ok (nonce ++ d) /\
    length d = (8 * length ns)%nat /\ map e164 (slots8 (length ns) d) = map e164 ns /\ slots8 (length ns) d = ns.
Proof.
  intros ns nonce H. exists (concat (map (be_enc 8) ns)). unfold buildQueryDataWithNonce. rewrite address_e164 by exact H.
  split; [reflexivity|]. rewrite slots8_ok by exact H. split; [|split; reflexivity].
  clear H. induction ns as [|n ns IH]; [reflexivity|]. cbn [map concat length]. rewrite app_length, be_enc_length, IH. lia.
Qed.
Print Assumptions C57_query_exact.

(* Different numbers have different encodings. *)
Theorem C57_query_injective : forall ns ms nonce, Forall (fun n => 0 <= n < 2 ^ 63) ns -> Forall (fun n => 0 <= n < 2 ^ 63) ms ->
  length ns = length ms ->
  buildQueryDataWithNonce (map e164 ns) nonce = buildQueryDataWithNonce (map e164 ms) nonce -> ns = ms.
Proof.
  intros ns ms nonce H K L E.
  destruct (C57_query_exact ns nonce H) as (d & E1 & _ & _ & S1).
  destruct (C57_query_exact ms nonce K) as (d' & E2 & _ & _ & S2).
  rewrite E1, E2 in E. assert (X : nonce ++ d = nonce ++ d') by congruence. apply app_inv_head in X. subst d'. congruence.
Qed.
Print Assumptions C57_query_injective.

(* What the directory, knowing its keys, gets out of a request. *)
Theorem C57_request_opens : forall G, gcm_ok G -> forall sha256 book ats key nonce iv q,
  length key = 32%nat -> length iv = 12%nat ->
  CreateDiscoveryRequest G sha256 book ats key nonce iv = Ok q ->
  exists d, buildQueryDataWithNonce book nonce = Ok d /\ dr_count q = zlen book /\ dr_commitment q = sha256 d /\
    cds_decrypt G key (sp_iv (dr_body q)) (sp_data (dr_body q)) (sp_mac (dr_body q)) [] = Ok d /\
    Forall2 (fun (a : attest * bytes) e => sp_req e = at_req (fst a) /\
      cds_decrypt G (at_client (fst a)) (sp_iv e) (sp_data e) (sp_mac e) (at_req (fst a)) = Ok key) ats (dr_envs q).
Proof.
  intros G OK sha book ats key nonce iv q Hk Hi H. unfold CreateDiscoveryRequest in H.
  destruct (buildQueryDataWithNonce book nonce) as [d| |] eqn:B; cbn [bind] in H; try discriminate.
  assert (Op : forall k a p n x, aesEncryptNonce G k a p n = Ok x ->
    cds_decrypt G k (fst (fst x)) (snd (fst x)) (snd x) a = Ok p).
  { intros k a p n x X. unfold aesEncryptNonce in X. unfold cds_decrypt.
    destruct (aes_key_ok k); cbn [negb] in *; [|discriminate].
    destruct (length n =? 12)%nat eqn:N; cbn [negb] in *; [|discriminate].
    set (c := seal G k n a p) in *. 
    assert (Y : x = (n, firstn (length c - 16) c, skipn (length c - 16) c)) by congruence. rewrite Y. cbn [fst snd].
    rewrite N. cbn [negb]. rewrite firstn_skipn. unfold c. rewrite (gopen_seal G OK). reflexivity. }
  destruct (aesEncryptNonce G key [] d iv) as [[x m]| |] eqn:E; cbn [bind] in H; try discriminate.
  destruct (envelopes G key ats) as [es| |] eqn:V; cbn [bind] in H; try discriminate.
  assert (Q : q = mkDisc (zlen book) (sha d) (mkPart (fst x) (snd x) m []) es) by congruence. subst q. clear H.
  exists d. split; [reflexivity|]. cbn [dr_count dr_commitment dr_body dr_envs sp_iv sp_data sp_mac]. split; [reflexivity|].
  split; [reflexivity|]. split; [exact (Op _ _ _ _ _ E)|].
  clear E. revert es V. induction ats as [|[a n] ats IH]; intros es V; cbn [envelopes] in V.
  - injection V as <-. constructor.
  - destruct (aesEncryptNonce G (at_client a) (at_req a) key n) as [[y mm]| |] eqn:E; cbn [bind] in V; try discriminate.
    destruct (envelopes G key ats) as [r| |] eqn:R; cbn [bind] in V; try discriminate. injection V as <-.
    constructor; [|now apply IH]. cbn [fst sp_req sp_iv sp_data sp_mac]. split; [reflexivity|]. exact (Op _ _ _ _ _ E).
Qed.
Print Assumptions C57_request_opens.

(* ---- the numbers that are asked for ---- *)

Lemma udec_head n : 1 <= n < 10 ^ 20 -> exists c t, udec n = c :: t /\ 49 <= c <= 57.
Proof.
  unfold udec. change 20 with (Z.of_nat 20) at 1. generalize 20%nat as k. intros k. revert n. induction k as [|k IH]; intros n H.
  - change (10 ^ Z.of_nat 0) with 1 in H. lia.
  - cbn [udec_fuel]. destruct (n <? 10) eqn:E; [apply Z.ltb_lt in E|apply Z.ltb_ge in E].
    + exists (48 + n), []. split; [reflexivity|lia].
    + assert (Pk : 10 ^ Z.of_nat (S k) = 10 * 10 ^ Z.of_nat k) by (rewrite Nat2Z.inj_succ, Z.pow_succ_r by lia; reflexivity).
      destruct (IH (n / 10)) as (c & t & -> & Hc).
      { split; [apply Z.div_le_lower_bound; lia|apply Z.div_lt_upper_bound; lia]. }
      exists c, (t ++ [48 + n mod 10]). split; [reflexivity|exact Hc].
Qed.

Lemma e164_accepted n : 1 <= n < 10 ^ 20 -> rmatch phone_re (e164 n) = true.
Proof.
  intros H. apply rmatch_ok. unfold e164. destruct (udec_head n H) as (c & t & E & Hc).
  assert (D : Forall (fun c => 48 <= c <= 57) t).
  { pose proof (udec_digits n ltac:(lia)) as F. rewrite E in F. apply Forall_inv_tail in F.
    eapply Forall_impl; [|exact F]. cbn beta. intros a X. unfold is_digit in X. lia. }
  rewrite E. unfold phone_re.
  replace (43 :: c :: t) with (([43; c] ++ []) ++ (t ++ [])) by (cbn [app]; rewrite app_nil_r; reflexivity).
  apply LCat.
  - (* the country part: + and one digit *)
    unfold ropt. apply LAltL. apply LCat; [|apply LAltR; constructor]. apply LAltL. unfold r_country.
    change [43; c] with ([] ++ [43] ++ [c] ++ []). apply LCat; [apply LAltR; constructor|].
    apply LCat; [apply LAltR; constructor; reflexivity|]. apply LCat; [|apply LAltR; constructor].
    apply LAltR. change [c] with ([c] ++ []). apply LCat; [constructor; cbn [in_cls existsb fst snd]; lia|apply LAltR; constructor].
  - apply LCat; [|apply LAltR; constructor]. destruct t as [|d t]; [constructor|].
    rewrite <- (app_nil_r (d :: t)). apply LStarS; [|constructor]. unfold r_group.
    replace (d :: t) with ([] ++ ((d :: t) ++ [])) by (cbn [app]; rewrite app_nil_r; reflexivity).
    apply LCat; [apply LAltR; constructor|].
    apply LCat; [|apply (LCat r_close r_sep [] []); apply LAltR; constructor].
    unfold plus. change (d :: t) with ([d] ++ t). apply Forall_cons_iff in D. destruct D as [Hd D].
    apply LCat; [constructor; cbn [in_cls existsb fst snd]; lia|now apply star_digits].
Qed.

Lemma memb_in x l : memb x l = true <-> In x l.
Proof.
  unfold memb. rewrite existsb_exists. split; [intros (y & H & E); apply beq_eq in E; subst; exact H|].
  intros H. exists x. split; [exact H|apply beq_refl].
Qed.

Lemma tokens_nodup cs : forall seen, NoDup (tokens_of seen cs) /\ (forall x, In x (tokens_of seen cs) -> ~ In x seen) /\
  (forall x, In x (tokens_of seen cs) -> exists c, In c cs /\ p_tel c = x).
Proof.
  induction cs as [|c cs IH]; intros seen; cbn [tokens_of].
  - repeat split; [constructor|intros x []|intros x []].
  - destruct (negb (beq (p_tel c) []) && rmatch phone_re (p_tel c) && negb (memb (p_tel c) seen)) eqn:E.
    + apply andb_true_iff in E. destruct E as [_ E]. apply negb_true_iff in E.
      destruct (IH (p_tel c :: seen)) as (A & B & D). repeat split.
      * constructor; [|exact A]. intros X. apply (B _ X). now left.
      * intros x [<-|X]; [intros Y; apply memb_in in Y; congruence|]. intros Y. apply (B _ X). now right.
      * intros x [<-|X]; [exists c; split; [now left|reflexivity]|]. destruct (D _ X) as (d & I & T). exists d. split; [now right|exact T].
    + destruct (IH seen) as (A & B & D). repeat split; [exact A|exact B|].
      intros x X. destruct (D _ X) as (d & I & T). exists d. split; [now right|exact T].
Qed.

(* An address book of international numbers is asked for completely, in order. *)
Theorem C57_all_asked : forall local ns, map p_tel local = map e164 ns -> NoDup ns ->
  Forall (fun n => 1 <= n < 2 ^ 63) ns -> tokens_of [] local = map p_tel local.
Proof.
  intros local ns T N R.
  assert (G : forall seen, (forall n, In n ns -> ~ In (e164 n) seen) -> tokens_of seen local = map p_tel local).
  { revert local T. induction ns as [|n ns IH]; intros [|c local] T seen S0; cbn [map] in T; try discriminate; [reflexivity|].
    assert (Tc : p_tel c = e164 n) by congruence. assert (Tr : map p_tel local = map e164 ns) by congruence.
    cbn [tokens_of map]. rewrite Tc. cbn [e164 beq negb andb].
    change (43 :: udec n) with (e164 n). rewrite e164_accepted by (apply Forall_inv in R; lia). cbn [andb].
    destruct (memb (e164 n) seen) eqn:M; [apply memb_in in M; elim (S0 n (or_introl eq_refl) M)|]. cbn [negb].
    rewrite Tr. f_equal. rewrite <- Tr. apply NoDup_cons_iff in N. destruct N as [N1 N2].
    apply IH; [exact N2|now apply Forall_inv_tail in R|exact Tr|].
    intros m Hm [X|X]; [|apply (S0 m (or_intror Hm) X)].
    assert (Rn : 1 <= n < 2 ^ 63) by (now apply Forall_inv in R).
    assert (Rm : 1 <= m < 2 ^ 63) by (apply Forall_inv_tail in R; exact (proj1 (Forall_forall _ _) R m Hm)).
    injection X as X. apply udec_inj in X; [subst m; contradiction|lia|lia]. }
  apply G. intros n _ [].
Qed.
Print Assumptions C57_all_asked.

(* Nobody else is asked for, and nobody twice. *)
Theorem C57_asked_once : forall local, NoDup (tokens_of [] local) /\ forall t, In t (tokens_of [] local) -> exists c, In c local /\ p_tel c = t.
Proof.
  intros local.
  assert (G : forall seen, NoDup (tokens_of seen local) /\
    forall t, In t (tokens_of seen local) -> ~ In t seen /\ exists c, In c local /\ p_tel c = t).
  { induction local as [|c local IH]; intros seen; cbn [tokens_of]; [split; [constructor|intros t []]|].
    destruct (negb (beq (p_tel c) []) && rmatch phone_re (p_tel c) && negb (memb (p_tel c) seen)) eqn:B.
    - apply andb_prop in B as (_ & B). apply negb_true_iff in B. destruct (IH (p_tel c :: seen)) as (N & S). split.
      + constructor; [|exact N]. intros X. destruct (S _ X) as (Y & _). apply Y. now left.
      + intros t [<-|X].
        * split; [intros X; apply memb_in in X; congruence|]. exists c. split; [now left|reflexivity].
        * destruct (S t X) as (Y & e & E1 & E2). split; [intros Z; apply Y; now right|]. exists e. split; [now right|exact E2].
    - destruct (IH seen) as (N & S). split; [exact N|]. intros t X. destruct (S t X) as (Y & e & E1 & E2). split; [exact Y|].
      exists e. split; [now right|exact E2]. }
  destruct (G []) as (N & S). split; [exact N|]. intros t X. exact (proj2 (S t X)).
Qed.
Print Assumptions C57_asked_once.

(* ---- reading the answer ---- *)

Lemma assign_first phone u : forall cs cs' c, assign phone u cs = (cs', Some c) ->
  exists j d, first_at j cs d /\ p_tel d = phone /\ c = found u d /\ length cs' = length cs /\
    (forall i, i <> j -> nth_error cs' i = nth_error cs i) /\ nth_error cs' j = Some c.
Proof.
  induction cs as [|d cs IH]; intros cs' c H; cbn [assign] in H; [discriminate|].
  destruct (beq (p_tel d) phone) eqn:B.
  - apply beq_eq in B. injection H as <- <-. exists O, d. repeat split; [intros i e L; lia|exact B|].
    intros [|i] N; [congruence|reflexivity].
  - apply beq_neq in B. destruct (assign phone u cs) as [r o] eqn:A. injection H as <- ->.
    destruct (IH r c eq_refl) as (j & e & (F1 & F2) & T & -> & L & O & At). exists (S j), e. repeat split.
    + exact F1.
    + intros [|i] x Li Hx; [cbn in Hx; injection Hx as <-; congruence|]. apply (F2 i x); [lia|exact Hx].
    + exact T.
    + cbn [length]. lia.
    + intros [|i] N; [reflexivity|]. cbn [nth_error]. apply O. lia.
    + exact At.
Qed.

Lemma assign_total phone u cs : (exists c, In c cs /\ p_tel c = phone) -> exists cs' c, assign phone u cs = (cs', Some c).
Proof.
  induction cs as [|d cs IH]; intros (c & I & T); [destruct I|]. cbn [assign]. destruct (beq (p_tel d) phone) eqn:B; [eauto|].
  destruct I as [->|I]; [rewrite T, beq_refl in B; discriminate|]. destruct (IH (ex_intro _ c (conj I T))) as (r & e & E).
  rewrite E. eauto.
Qed.

Lemma found_identified u c : identified u c (found u c).
Proof. unfold identified, found. cbn. repeat split. Qed.

Lemma first_transfer cs cs1 j0 d0 u : first_at j0 cs d0 -> (forall i, i <> j0 -> nth_error cs1 i = nth_error cs i) ->
  nth_error cs1 j0 = Some (found u d0) -> forall j d, j <> j0 -> first_at j cs d -> first_at j cs1 d.
Proof.
  intros [F1 F2] O At j d N [G1 G2]. split; [rewrite O by exact N; exact G1|].
  intros i e L E. destruct (Nat.eq_dec i j0) as [->|Ni].
  - rewrite At in E. injection E as <-. exact (G2 j0 d0 L F1).
  - rewrite O in E by exact Ni. exact (G2 i e L E).
Qed.

Lemma first_unique cs i j c d : first_at i cs c -> first_at j cs d -> p_tel c = p_tel d -> i = j.
Proof.
  intros [A1 A2] [B1 B2] T. destruct (Nat.lt_trichotomy i j) as [L|[E|L]]; [|exact E|].
  - elim (B2 i c L A1 T).
  - elim (A2 j d L B1). congruence.
Qed.

(* The answer for number i is read from slot i: the first contact with that number gets the identity in the
   slot, every other contact stays as it was. *)
Theorem C57_answers : forall toks ids cs t,
  NoDup toks -> length ids = length toks -> Forall (fun id => length id = 16%nat) ids ->
  (forall x, In x toks -> exists c, In c cs /\ p_tel c = x) ->
  exists cs' t', merge toks (concat ids) cs t = Ok (cs', t') /\ length cs' = length cs /\
    (forall i phone id u j c, nth_error toks i = Some phone -> nth_error ids i = Some id -> idToHexUUID id = Ok u ->
      first_at j cs c -> p_tel c = phone -> exists r, nth_error cs' j = Some r /\ identified u c r) /\
    (forall j c, nth_error cs j = Some c -> (~ first_at j cs c \/ ~ In (p_tel c) toks) -> nth_error cs' j = Some c).
Proof.
  induction toks as [|phone toks IH]; intros ids cs t N L S16 K.
  - exists cs, t. split; [reflexivity|]. split; [reflexivity|]. split.
    + intros [|i] ph id u j c H; discriminate.
    + intros j c H _. exact H.
  - destruct ids as [|id ids]; [discriminate|]. apply NoDup_cons_iff in N. destruct N as [Np N].
    apply Forall_cons_iff in S16. destruct S16 as [L16 S16].
    destruct (assign_total phone (match idToHexUUID id with Ok u => u | _ => [] end) cs (K phone (or_introl eq_refl))) as (cs1 & c1 & A).
    cbn [merge concat].
    rewrite (proj2 (Nat.ltb_ge (length (id ++ concat ids)) 16)) by (rewrite app_length; lia).
    rewrite firstn_app_exact, skipn_app_exact by exact L16.
    assert (U : exists u, idToHexUUID id = Ok u).
    { unfold idToHexUUID. rewrite L16. cbn [Nat.ltb Nat.leb]. eauto. }
    destruct U as [u U]. rewrite U in A |- *. cbn [bind]. rewrite A.
    destruct (assign_first _ _ _ _ _ A) as (j0 & d0 & F0 & T0 & -> & L0 & O0 & At0).
    assert (Tels : forall i c, nth_error cs i = Some c -> exists c', nth_error cs1 i = Some c' /\ p_tel c' = p_tel c).
    { intros i c H. destruct (Nat.eq_dec i j0) as [->|Ni].
      - exists (found u d0). split; [exact At0|]. destruct F0 as [F0 _]. rewrite F0 in H. injection H as <-. reflexivity.
      - exists c. rewrite O0 by exact Ni. now split. }
    assert (K1 : forall x, In x toks -> exists c, In c cs1 /\ p_tel c = x).
    { intros x Hx. destruct (K x (or_intror Hx)) as (c & I & Tc). apply In_nth_error in I. destruct I as [i I].
      destruct (Tels i c I) as (c' & I' & Tc'). exists c'. split; [now apply nth_error_In in I'|congruence]. }
    assert (L1 : length ids = length toks) by (cbn [length] in L; lia).
    destruct (IH ids cs1 (put (if p_registered (found u d0) then p_uuid (found u d0) else p_tel (found u d0)) (found u d0) t)
                N L1 S16 K1) as (cs' & t' & M & Len & Slots & Rest).
    exists cs', t'. split; [exact M|]. split; [congruence|]. split.
    + intros [|i] ph id' u' j c H1 H2 H3 F T.
      * cbn [nth_error] in H1, H2. injection H1 as <-. injection H2 as <-. assert (u' = u) by congruence. subst u'.
        assert (j = j0) by (apply (first_unique cs j j0 c d0 F F0); congruence). subst j.
        destruct F as [F _]. destruct F0 as [F0 _]. rewrite F0 in F. injection F as ->.
        exists (found u c). split; [|apply found_identified]. apply Rest; [exact At0|]. right.
        change (p_tel (found u c)) with (p_tel c). rewrite T. exact Np.
      * cbn [nth_error] in H1, H2.
        assert (j <> j0).
        { intros ->. destruct F as [F _]. destruct F0 as [F0 _]. rewrite F0 in F. injection F as ->. apply Np.
          rewrite <- T0, T. now apply nth_error_In in H1. }
        apply (Slots i ph id' u' j c H1 H2 H3); [|exact T]. now apply (first_transfer cs cs1 j0 d0 u).
    + intros j c H D.
      assert (j <> j0).
      { intros ->. destruct D as [D|D]; [|apply D; left].
        - apply D. destruct F0 as [F0 F0']. rewrite F0 in H. injection H as <-. now split.
        - destruct F0 as [F0 _]. rewrite F0 in H. injection H as <-. symmetry. exact T0. }
      apply Rest; [rewrite O0 by assumption; exact H|].
      destruct D as [D|D]; [|right; intros X; apply D; now right].
      left. intros F. apply D. split; [exact H|]. intros i e Li E.
      destruct (Tels i e E) as (e' & E' & Te). rewrite <- Te. destruct F as [_ F]. exact (F i e' Li E').
Qed.
Print Assumptions C57_answers.

(* An answer that is too short crashes the client. *)
Theorem C83_short_answer_crashes : forall toks data cs t, (forall x, In x toks -> exists c, In c cs /\ p_tel c = x) ->
  (merge toks data cs t = Panic <-> (length data < 16 * length toks)%nat).
Proof.
  induction toks as [|phone toks IH]; intros data cs t K; cbn [merge length].
  - split; [discriminate|lia].
  - destruct (length data <? 16)%nat eqn:E; [apply Nat.ltb_lt in E; split; [lia|reflexivity]|]. apply Nat.ltb_ge in E.
    assert (U : exists u, idToHexUUID (firstn 16 data) = Ok u).
    { unfold idToHexUUID. rewrite firstn_length, Nat.min_l by exact E. cbn [Nat.ltb Nat.leb]. eauto. }
    destruct U as [u U]. rewrite U. cbn [bind].
    destruct (assign_total phone u cs (K phone (or_introl eq_refl))) as (cs1 & c1 & A). rewrite A.
    rewrite IH.
    + rewrite skipn_length. lia.
    + intros x Hx. destruct (K x (or_intror Hx)) as (c & I & Tc).
      destruct (assign_first _ _ _ _ _ A) as (j0 & d0 & [F0 _] & T0 & -> & L0 & O0 & At0).
      apply In_nth_error in I. destruct I as [i I]. destruct (Nat.eq_dec i j0) as [->|Ni].
      * exists (found u d0). split; [now apply nth_error_In in At0|]. rewrite F0 in I. injection I as <-. exact Tc.
      * exists c. split; [|exact Tc]. rewrite <- O0 in I by exact Ni. now apply nth_error_In in I.
Qed.
Print Assumptions C83_short_answer_crashes.

(* ---- what is left of the table ---- *)

Lemma assign_pkey phone u cs cs' o : assign phone u cs = (cs', o) ->
  map p_pkey cs' = map p_pkey cs /\ map p_tel cs' = map p_tel cs /\
  forall c, o = Some c -> exists d, In d cs /\ p_pkey c = p_pkey d /\ p_tel c = p_tel d.
Proof.
  revert cs' o. induction cs as [|d cs IH]; intros cs' o H; cbn [assign] in H.
  - injection H as <- <-. repeat split. discriminate.
  - destruct (beq (p_tel d) phone).
    + injection H as <- <-. repeat split. intros c [= <-]. exists d. repeat split. now left.
    + destruct (assign phone u cs) as [r o'] eqn:A. injection H as <- <-. destruct (IH _ _ eq_refl) as (P & T & Q).
      cbn [map]. rewrite P, T. repeat split. intros c E. destruct (Q c E) as (e & I & X). exists e. split; [now right|exact X].
Qed.

Lemma merge_origin toks : forall data cs t cs' t', merge toks data cs t = Ok (cs', t') ->
  forall k c, lookup k t' = Some c -> lookup k t = Some c \/ exists d, In (p_pkey d, p_tel d) (map (fun x => (p_pkey x, p_tel x)) cs) /\ p_pkey c = p_pkey d /\ p_tel c = p_tel d.
Proof.
  induction toks as [|phone toks IH]; intros data cs t cs' t' H k c L; cbn [merge] in H.
  - injection H as <- <-. now left.
  - destruct (length data <? 16)%nat; [discriminate|].
    destruct (idToHexUUID (firstn 16 data)) as [u| |]; cbn [bind] in H; try discriminate.
    destruct (assign phone u cs) as [cs1 [c1|]] eqn:A; [|discriminate].
    destruct (assign_pkey _ _ _ _ _ A) as (P & T & Q).
    destruct (IH _ _ _ _ _ H k c L) as [X|(d & I & X)].
    + rewrite lookup_put in X. destruct (beq k _); [|now left]. injection X as <-. right.
      destruct (Q c1 eq_refl) as (d & I & E1 & E2). exists d. repeat split; [|exact E1|exact E2].
      apply in_map_iff. now exists d.
    + right. exists d. split; [|exact X].
      apply in_map_iff in I. destruct I as (e & Ee & Ie). apply In_nth_error in Ie. destruct Ie as [i Ie].
      assert (P1 : nth_error (map p_pkey cs) i = Some (p_pkey e)) by (rewrite <- P; now apply map_nth_error).
      assert (T1 : nth_error (map p_tel cs) i = Some (p_tel e)) by (rewrite <- T; now apply map_nth_error).
      rewrite nth_error_map in P1, T1. destruct (nth_error cs i) as [f|] eqn:Ef; [|discriminate].
      cbn [option_map] in P1, T1. rewrite <- Ee. apply in_map_iff. exists f. split; [congruence|now apply nth_error_In in Ef].
Qed.

(* C81. After a synchronisation every contact in the table comes from the address book: its profile key and
   number are those of an entry there. Nothing else that was known is left. *)
Theorem C81_table_is_the_address_book : forall G sha256 local ats key nonce iv serve w s s' cs,
  GetRegisteredContacts G sha256 local ats key nonce iv serve w s = (s', Ok cs) ->
  forall k c, lookup k (cs_table s') = Some c -> exists d, In d local /\ p_pkey c = p_pkey d /\ p_tel c = p_tel d.
Proof.
  intros G sha local ats key nonce iv serve w s s' cs H k c L. unfold GetRegisteredContacts in H.
  destruct (tokens_of [] local) as [|tk toks]; [discriminate|].
  set (x := bind _ _) in H. destruct x as [data| |]; try discriminate.
  destruct (merge (tk :: toks) data local []) as [[cs1 t1]| |] eqn:M; try discriminate.
  assert (T : cs_table s' = t1).
  { unfold WriteContactsToPath in H. destruct w; injection H as <- _; reflexivity. }
  rewrite T in L. destruct (merge_origin _ _ _ _ _ _ M k c L) as [X|(d & I & X)]; [discriminate|].
  apply in_map_iff in I. destruct I as (e & Ee & Ie). exists e. split; [exact Ie|]. destruct X. split; congruence.
Qed.
Print Assumptions C81_table_is_the_address_book.

(* ---- examples ---- *)
Definition ex_person (tel name : bytes) : person := mkPerson [] tel [] name [] false false [] [] [] [].
(* "+4917012", "+33123" and "+1555" *)
Definition ex_n1 := 4917012. Definition ex_n2 := 33123. Definition ex_n3 := 1555.
Definition ex_local : list person := [ex_person (e164 ex_n1) [65]; ex_person (e164 ex_n2) [66]; ex_person (e164 ex_n3) [67]].
Definition ex_id : bytes := [18; 52; 86; 120; 18; 52; 70; 120; 146; 52; 1; 2; 3; 4; 5; 6].
Definition ex_att : attest := mkAttest [1; 2] (repeat 3 32) (repeat 4 32).
Definition ex_answer (d : bytes) : sealedpart :=
  let c := toy_seal (repeat 4 32) (repeat 5 12) [] d in
  mkPart (repeat 5 12) (firstn (length c - 16) c) (skipn (length c - 16) c) [1; 2].
Definition ex_sync (d : bytes) (local : list person) (s : cstate) :=
  GetRegisteredContacts toygcm (toy_hmac []) local [(ex_att, repeat 6 12)] (repeat 7 32) (repeat 8 32) (repeat 9 12)
    (fun _ => Ok (ex_answer d)) (Some (fun t => t)) s.
Definition ex_text : bytes := Eval vm_compute in match idToHexUUID ex_id with Ok u => u | _ => [] end.

(* the first and the second number are not registered, the third is *)
Example C57_example : tokens_of [] ex_local = map e164 [ex_n1; ex_n2; ex_n3] /\
  exists s', ex_sync (zeros 32 ++ ex_id) ex_local (mkCs [] []) = (s', Ok [found zero_uuid (nth 0 ex_local no_person);
    found zero_uuid (nth 1 ex_local no_person); found ex_text (nth 2 ex_local no_person)]) /\
  lookup ex_text (cs_table s') = Some (found ex_text (nth 2 ex_local no_person)) /\
  lookup (e164 ex_n2) (cs_table s') = Some (found zero_uuid (nth 1 ex_local no_person)).
Proof.
  split; [vm_compute; reflexivity|]. eexists. split; [vm_compute; reflexivity|]. split; vm_compute; reflexivity.
Qed.

Example C57_query_example : exists d, buildQueryDataWithNonce (map e164 [ex_n1; ex_n2; ex_n3]) (repeat 8 32) = Ok (repeat 8 32 ++ d) /\
  slots8 3 d = [ex_n1; ex_n2; ex_n3].
Proof. eexists. split; vm_compute; reflexivity. Qed.

(* C80, continued: the two unregistered contacts of the example cannot both be found after a restart. *)
Theorem C80_restart_refuted : exists s s' cs k c,
  ex_sync (zeros 32 ++ ex_id) ex_local s = (s', Ok cs) /\ saved s' /\
  lookup k (cs_table s') = Some c /\ lookup k (cs_table (restart s')) = None /\
  length (cs_table s') = 3%nat /\ length (cs_table (restart s')) = 2%nat.
Proof.
  exists (mkCs [] []). do 4 eexists. split; [vm_compute; reflexivity|]. split.
  - eexists. split; [apply Permutation_refl|]. cbn [cs_file cs_table map snd]. reflexivity.
  - split; [instantiate (2 := e164 ex_n1); vm_compute; reflexivity|]. split; [vm_compute; reflexivity|]. split; vm_compute; reflexivity.
Qed.
Print Assumptions C80_restart_refuted.

(* C81. A peer announces a profile key; after the next synchronisation it is gone, although the peer is in the
   address book. *)
Theorem C81_learned_key_kept_refuted : exists s1 s2 s3 cs c1 c3,
  s2 = fst (UpdateProfileKey ex_text (repeat 42 32) (Some (fun t => t)) s1) /\
  lookup ex_text (cs_table s1) = Some c1 /\ p_registered c1 = true /\
  p_pkey (GetContact ex_text s2) = repeat 42 32 /\
  ex_sync (zeros 32 ++ ex_id) ex_local s2 = (s3, Ok cs) /\
  lookup ex_text (cs_table s3) = Some c3 /\ p_pkey c3 = [].
Proof.
  exists (fst (ex_sync (zeros 32 ++ ex_id) ex_local (mkCs [] []))). do 5 eexists. split; [reflexivity|].
  split; [vm_compute; reflexivity|]. split; [vm_compute; reflexivity|]. split; [vm_compute; reflexivity|].
  split; [vm_compute; reflexivity|]. split; vm_compute; reflexivity.
Qed.
Print Assumptions C81_learned_key_kept_refuted.

(* C82. One number with a space in it passes the filter but cannot be parsed, and nobody is found. *)
Definition ex_spaced : bytes := [43; 52; 57; 32; 49; 55; 48].
Theorem C82_one_number_spoils_all_refuted : exists local c s,
  rmatch phone_re (p_tel c) = true /\ ex_sync (zeros 32 ++ ex_id) local s <> (s, Err EBadFormat) /\
  forall d, ex_sync d (local ++ [c]) s = (s, Err EBadFormat).
Proof.
  exists ex_local, (ex_person ex_spaced [68]), (mkCs [] []).
  split; [vm_compute; reflexivity|]. split; [vm_compute; discriminate|]. intros d. unfold ex_sync.
  unfold GetRegisteredContacts.
  assert (T : tokens_of [] (ex_local ++ [ex_person ex_spaced [68]]) = map e164 [ex_n1; ex_n2; ex_n3] ++ [ex_spaced])
    by (vm_compute; reflexivity).
  rewrite T. vm_compute. reflexivity.
Qed.
Print Assumptions C82_one_number_spoils_all_refuted.

(* In general: a number in the list that cannot be parsed fails the whole query. *)
Theorem C82_all_or_nothing : forall l nonce,
  (exists d, buildQueryDataWithNonce l nonce = Ok d) <-> Forall (fun a => exists n, atoi a = Some n) l.
Proof.
  intros l nonce. unfold buildQueryDataWithNonce.
  assert (H : (exists d, addressData l = Ok d) <-> Forall (fun a => exists n, atoi a = Some n) l).
  { induction l as [|a l IH]; cbn [addressData]; [split; [constructor|eexists; reflexivity]|]. rewrite Forall_cons_iff, <- IH. split.
    - intros [d H]. destruct (atoi a) as [n|]; [|discriminate]. destruct (addressData l) as [r| |]; try discriminate.
      split; eauto.
    - intros [[n ->] [d ->]]. cbn [bind]. eauto. }
  rewrite <- H. split.
  - intros [d E]. destruct (addressData l) as [r| |]; try discriminate. eauto.
  - intros [d ->]. cbn [bind]. eauto.
Qed.
Print Assumptions C82_all_or_nothing.

(* C83 of the whole function. *)
Theorem C83_short_answer_refuted : exists local s, snd (ex_sync (zeros 31) local s) = Panic.
Proof. exists ex_local, (mkCs [] []). vm_compute. reflexivity. Qed.
Print Assumptions C83_short_answer_refuted.

(* ---- C84: refreshing a profile ---- *)

(* The entry that is changed is the one the server names, whichever was asked for. *)
Theorem C84_refresh : forall uuid r w s s' x, GetProfileUUID uuid r w s = (s', x) ->
  (exists e, (x = Err e \/ x = Panic) /\ s' = s) \/
  (exists a, r (GetContact uuid s) = Ok a /\
    (forall k, k <> an_uuid a -> lookup k (cs_table s') = lookup k (cs_table s)) /\
    exists d, lookup (an_uuid a) (cs_table s') = Some d /\ p_uuid d = an_uuid a /\
      p_pkey d = p_pkey (GetContact uuid s) /\ p_tel d = p_tel (GetContact uuid s) /\
      p_registered d = p_registered (GetContact uuid s) /\ p_username d = an_name a /\
      (p_name (GetContact uuid s) <> [] -> p_name d = p_name (GetContact uuid s)) /\ (p_name (GetContact uuid s) = [] -> p_name d = an_name a) /\
      (an_about a <> [] -> p_about d = an_about a) /\ (an_about a = [] -> p_about d = p_about (GetContact uuid s)) /\
      (an_emoji a <> [] -> p_emoji d = an_emoji a) /\ (an_emoji a = [] -> p_emoji d = p_emoji (GetContact uuid s))).
Proof.
  intros uuid r w s s' x H. unfold GetProfileUUID in H. destruct (r (GetContact uuid s)) as [a|e|] eqn:R.
  - right. exists a. split; [reflexivity|].
    assert (T : cs_table s' = put (an_uuid a) (refreshed a (GetContact uuid s)) (cs_table s)).
    { unfold WriteContactsToPath in H. destruct w; injection H as <- _; reflexivity. }
    rewrite T. split; [intros k N; apply lookup_put_other; exact N|].
    exists (refreshed a (GetContact uuid s)). split; [apply lookup_put_same|].
    unfold refreshed. cbn [p_uuid p_pkey p_tel p_registered p_username p_name p_about p_emoji].
    repeat (split; [reflexivity|]).
    assert (N : forall (b x y : bytes), (b <> [] -> (if beq b [] then x else y) = y) /\ (b = [] -> (if beq b [] then x else y) = x)).
    { intros b v v'. split; [intros Q; destruct b; [contradiction|reflexivity]|intros ->; reflexivity]. }
    split; [apply N|]. split; [apply N|]. split; [apply N|]. split; [apply N|]. split; apply N.
  - left. injection H as <- <-. exists e. auto.
  - left. injection H as <- <-. exists EOther. auto.
Qed.
Print Assumptions C84_refresh.

(* With an answer that names the contact asked for, no other contact changes. *)
Theorem C84_refresh_honest : forall uuid r w s s' x, (forall c a, r c = Ok a -> an_uuid a = uuid) ->
  GetProfileUUID uuid r w s = (s', x) ->
  (forall k, k <> uuid -> lookup k (cs_table s') = lookup k (cs_table s)) /\
  (forall c, lookup uuid (cs_table s) = Some c -> p_uuid c = uuid -> exists d, lookup uuid (cs_table s') = Some d /\
     p_uuid d = uuid /\ p_tel d = p_tel c /\ p_pkey d = p_pkey c /\ p_registered d = p_registered c).
Proof.
  intros uuid r w s s' x Hon H. destruct (C84_refresh _ _ _ _ _ _ H) as [(e & _ & ->)|(a & R & O & d & L & D)].
  - split; [reflexivity|]. intros c E U. exists c. auto.
  - apply Hon in R. rewrite R in *. split; [exact O|]. intros c E U. exists d. split; [exact L|].
    unfold GetContact in D. rewrite E in D. destruct D as (D1 & D2 & D3 & D4 & _). auto.
Qed.
Print Assumptions C84_refresh_honest.

(* An answer that leaves out the UUID, or names another one, files the contact under the wrong name and can
   replace another contact. *)
Theorem C84_other_contact_replaced_refuted : exists uuid other a s s' c,
  uuid <> other /\ GetProfileUUID uuid (fun _ => Ok a) (Some (fun t => t)) s = (s', Ok tt) /\
  lookup other (cs_table s) = Some c /\
  p_pkey (GetContact other s') = p_pkey (GetContact uuid s) /\ p_pkey c <> p_pkey (GetContact uuid s).
Proof.
  exists [97], [98], (mkAnswer [98] [78] [] [] None),
    (mkCs [([97], mkPerson [97] [49] [1] [65] [] true false [] [] [] []); ([98], mkPerson [98] [50] [2] [66] [] true false [] [] [] [])] []).
  do 2 eexists. split; [discriminate|]. split; [vm_compute; reflexivity|]. split; [vm_compute; reflexivity|].
  split; [vm_compute; reflexivity|]. vm_compute. discriminate.
Qed.
Print Assumptions C84_other_contact_replaced_refuted.
