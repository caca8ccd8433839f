(* The places of a session at which a client has taken messages: none is taken twice. Used for C191. *)
From Coq Require Import ZArith List Lia Bool.
From Verif Require Import Bytes Res Wire Crypto Cbc Messages MessagesProofs  Session SessionProofs Builder
  Conversation ConversationProofs History HistoryProofs Active ActiveLink Replay.
Import ListNotations.
Open Scope Z_scope.

(* ------------------------------------------------------------------------------------------ *)
(* Terms of different places are different *)
Lemma adh_eq x y u v : adh x y = adh u v -> (x = u /\ y = v) \/ (x = v /\ y = u).
Proof.
  unfold adh. destruct (bytes_leb x y), (bytes_leb u v); intros H; injection H as -> ->; auto.
Qed.
Definition ikm_of (t : aterm) : aterm := match t with AHkdf i _ _ _ _ _ => i | _ => t end.
Definition salt_of (t : aterm) : aterm := match t with AHkdf _ s _ _ _ _ => s | _ => t end.
Lemma root_same a a' : forall p p', a_root a p = a_root a' p' -> length p = length p' /\ a_km a = a_km a'.
Proof.
  induction p as [|k q IH]; intros [|k' q'] H; cbn [a_root] in H; try discriminate H.
  - apply (f_equal ikm_of) in H. split; [reflexivity|exact H].
  - apply (f_equal salt_of) in H. cbn [salt_of] in H. rename H into H1. apply IH in H1. cbn [length]. destruct H1 as [-> H1]. auto.
Qed.
Lemma ck_same a a' p p' : forall i i', a_ck a p i = a_ck a' p' i' -> i = i' /\ length p = length p' /\ a_km a = a_km a'.
Proof.
  induction i as [|i IH]; intros [|i'] H.
  - split; [reflexivity|]. cbn [a_ck] in H. destruct p as [|k q], p' as [|k' q']; try discriminate H.
    + apply (f_equal ikm_of) in H. split; [reflexivity|exact H].
    + apply (f_equal salt_of) in H. cbn [salt_of] in H. rename H into H1. apply root_same in H1. cbn [length]. destruct H1 as [-> H1]. auto.
  - cbn [a_ck] in H. destruct p; discriminate H.
  - cbn [a_ck] in H. destruct p'; discriminate H.
  - cbn [a_ck] in H. injection H as H. apply IH in H. destruct H as (-> & H1 & H2). auto.
Qed.

(* a client's side of an agreement; the base key it drew is not its identity key *)
Definition side (me : bytes) (a : agreement) : Prop := (ag_init a = me /\ ag_base a <> me) \/ ag_resp a = me.
Lemma km_base me a a' : side me a -> side me a' -> a_km a = a_km a' -> ag_base a = ag_base a'.
Proof.
  intros S1 S2 H. unfold a_km in H. injection H as H1 H2 H3 _. apply adh_eq in H1, H2, H3.
  destruct S1 as [[S1 N1]|S1], S2 as [[S2 N2]|S2];
    destruct H1 as [[H1 H1']|[H1 H1']], H2 as [[H2 H2']|[H2 H2']], H3 as [[H3 H3']|[H3 H3']]; congruence.
Qed.

(* ------------------------------------------------------------------------------------------ *)
Section I.
Variable C : crypto.
Hypothesis OK : crypto_ok C.
Variable priv : bytes -> option bytes.
Hypothesis priv_ok : forall k x, priv k = Some x -> basepub C x = k.
Variable bases signeds : bytes -> Prop.
Notation ev := (aeval C priv).
Notation mine := (mine C priv).
Notation ck_at := (ck_at C priv).
Notation mk_at := (mk_at C priv).
Notation state_at := (state_at C priv bases signeds).
Notation node_ok := (node_ok C priv bases signeds).

(* a receiving chain: its path, the index of its chain key, the indices of the keys kept *)
Definition gch : Type := list bytes * nat * list nat.
Definition gpath (g : gch) := fst (fst g).
Definition chain_g (a : agreement) (p : list bytes) (c : chain) (g : gch) : Prop :=
  suffix (gpath g) p /\ ch_ck c = Some (ck_at a (gpath g) (snd (fst g))) /\
  ch_mks c = map (mk_at a (gpath g)) (snd g) /\ NoDup (snd g) /\ Forall (fun j => (j < snd (fst g))%nat) (snd g).
(* U: the chain keys of the places at which messages were taken *)
Record holds (U : aterm -> Prop) (me : bytes) (a : agreement) (p : list bytes) (s : sstate) : Prop := {
  ho_state : state_at me a p s;
  ho_side : side me a;
  ho_base : s_base s = key_ser (ag_base a);
  ho_chains : exists G, Forall2 (chain_g a p) (s_recv s) G /\ NoDup (map (fun g => length (gpath g)) G) /\
    (forall q j, U (a_ck a q j) -> (length q <= length p)%nat /\
       forall g, In g G -> length (gpath g) = length q -> (j < snd (fst g))%nat /\ ~ In j (snd g)) }.

Lemma find_split rk l c : find_chain rk l = Some c -> exists l1 l2, l = l1 ++ c :: l2 /\
  forall f, upd_chain rk f l = l1 ++ f c :: l2.
Proof.
  induction l as [|d l IH]; cbn [find_chain upd_chain]; [discriminate|]. destruct (beq rk (ch_rpub d)).
  - intros H. injection H as ->. exists [], l. auto.
  - intros H. destruct (IH H) as (l1 & l2 & -> & E). exists (d :: l1), l2. split; [reflexivity|]. intros f. now rewrite E.
Qed.
Lemma take_split a q i : forall js k rest, take_mk i (map (mk_at a q) js) = Some (k, rest) ->
  exists j1 j j2, js = j1 ++ j :: j2 /\ k = mk_at a q j /\ rest = map (mk_at a q) (j1 ++ j2).
Proof.
  induction js as [|j js IH]; intros k rest; cbn [map take_mk]; [discriminate|].
  destruct (i =? mk_index (mk_at a q j)).
  - intros H. injection H as <- <-. exists [], j, js. auto.
  - destruct (take_mk i (map (mk_at a q) js)) as [[m r]|] eqn:E; [|discriminate].
    intros H. injection H as <- <-. destruct (IH _ _ eq_refl) as (j1 & j0 & j2 & -> & -> & ->).
    exists (j :: j1), j0, j2. auto.
Qed.
Lemma nodup_snoc {A} (l : list A) x : NoDup l -> ~ In x l -> NoDup (l ++ [x]).
Proof.
  intros H. induction H as [|y l Hy H IH]; intros Hx; cbn [app]; constructor; try constructor; auto.
  - intros HI. apply in_app_or in HI. destruct HI as [HI|[->|[]]]; [auto|]. apply Hx. now left.
  - apply IH. intros HI. apply Hx. now right.
Qed.
Lemma nodup_app' {A} (l m : list A) : NoDup l -> NoDup m -> (forall x, In x l -> ~ In x m) -> NoDup (l ++ m).
Proof.
  intros H Hm. induction H as [|y l Hy H IH]; intros HD; cbn [app]; [exact Hm|]. constructor.
  - intros HI. apply in_app_or in HI. destruct HI as [HI|HI]; [auto|]. apply (HD y); [now left|exact HI].
  - apply IH. intros x Hx. apply HD. now right.
Qed.
Lemma find_snoc rk l c : find_chain rk l = None -> ch_rpub c = rk -> find_chain rk (l ++ [c]) = Some c.
Proof.
  induction l as [|d l IH]; cbn [app find_chain]; intros H E; [now rewrite E, beq_refl|].
  destruct (beq rk (ch_rpub d)); [discriminate H|auto].
Qed.
Lemma upd_snoc rk f l c : find_chain rk l = None -> ch_rpub c = rk -> upd_chain rk f (l ++ [c]) = l ++ [f c].
Proof.
  induction l as [|d l IH]; cbn [app find_chain upd_chain]; intros H E; [now rewrite E, beq_refl|].
  destruct (beq rk (ch_rpub d)); [discriminate H|]. now rewrite IH.
Qed.
Lemma suffix_len (q p : list bytes) : suffix q p -> (length q <= length p)%nat.
Proof. intros [l ->]. rewrite app_length. lia. Qed.
Lemma chain_g_cons a k p c g : chain_g a p c g -> chain_g a (k :: p) c g.
Proof. intros (H1 & H2). split; [now apply suffix_cons|exact H2]. Qed.
Lemma Forall2_imp {A B} (P Q : A -> B -> Prop) l m : (forall x y, P x y -> Q x y) -> Forall2 P l m -> Forall2 Q l m.
Proof. intros H HF. induction HF; constructor; auto. Qed.
Lemma Forall2_tl {A B} (P : A -> B -> Prop) l m : Forall2 P l m -> Forall2 P (tl l) (tl m).
Proof. intros H. destruct H; [constructor|assumption]. Qed.
Lemma in_tl {A} (x : A) l : In x (tl l) -> In x l.
Proof. destruct l; [auto|now right]. Qed.

(* the chain of a message *)
Lemma chain_located U me a p s rk rnd c0 s1 : holds U me a p s -> mine (clamp rnd) ->
  getOrCreateChainKey C s rk rnd = Ok (c0, s1) ->
  exists p' G rc q i js, state_at me a p' s1 /\ s_remote s1 = s_remote s /\ s_base s1 = s_base s /\
     find_chain (rk) (s_recv s1) = Some rc /\ Forall2 (chain_g a p') (s_recv s1) G /\
     NoDup (map (fun g => length (gpath g)) G) /\ c0 = ck_at a q i /\ 
     (forall q0 j, U (a_ck a q0 j) -> (length q0 <= length p')%nat /\
       forall g, In g G -> length (gpath g) = length q0 -> (j < snd (fst g))%nat /\ ~ In j (snd g)) /\
     chain_g a p' rc (q, i, js) /\ 
     exists l1 l2 K1 K2, s_recv s1 = l1 ++ rc :: l2 /\ G = K1 ++ (q, i, js) :: K2 /\ Forall2 (chain_g a p') l1 K1 /\
       Forall2 (chain_g a p') l2 K2 /\ forall f, upd_chain (rk) f (s_recv s1) = l1 ++ f rc :: l2.
Proof.
  intros HH Hn E1. destruct (ho_chains _ _ _ _ _ HH) as (G & HG & ND & HU).
    assert (LOC : forall p' l K rc, find_chain (rk) l = Some rc -> Forall2 (chain_g a p') l K ->
      exists q i js l1 l2 K1 K2, chain_g a p' rc (q, i, js) /\ l = l1 ++ rc :: l2 /\ K = K1 ++ (q, i, js) :: K2 /\
       Forall2 (chain_g a p') l1 K1 /\ Forall2 (chain_g a p') l2 K2 /\ forall f, upd_chain (rk) f l = l1 ++ f rc :: l2).
    { intros p' l K rc Ef HK. destruct (find_split _ _ _ Ef) as (l1 & l2 & -> & Ed).
      apply Forall2_app_inv_l in HK. destruct HK as (K1 & K' & F1 & F2 & ->). inversion F2 as [|? g ? K2 F3 F4]; subst.
      destruct g as [[q i] js]. exists q, i, js, l1, l2, K1, K2. auto 10. }
    pose proof (ActiveLink.gocck_at C OK priv priv_ok bases signeds me a p s (rk) rnd c0 s1 (ho_state _ _ _ _ _ HH) Hn E1) as Hst.
    unfold getOrCreateChainKey in E1. destruct (find_chain (rk) (s_recv s)) as [rc|] eqn:Ef.
    - destruct (LOC p _ _ _ Ef HG) as (q & i & js & l1 & l2 & K1 & K2 & F1 & F2 & F3 & F4 & F5 & F6).
      assert (Hck : ch_ck rc = Some (ck_at a q i)) by apply F1. rewrite Hck in E1.
      destruct (load_ck _) as [c| |] eqn:El; cbn [bind] in E1; try discriminate E1. injection E1 as <- <-.
      apply load_at in El. subst c. exists p, G, rc, q, i, js. split; [apply HH|]. do 2 (split; [reflexivity|]).
      split; [exact Ef|]. split; [exact HG|]. split; [exact ND|]. split; [reflexivity|]. split; [exact HU|]. split; [exact F1|].
      exists l1, l2, K1, K2. auto 6.
    - clear Hst. destruct (sa_sender _ _ _ _ _ _ _ _ (ho_state _ _ _ _ _ HH)) as (x & i & mks & Hx & Hp & Hsc).
      assert (HSt := ho_state _ _ _ _ _ HH). 
      assert (E1' : getOrCreateChainKey C s (rk) rnd = Ok (c0, s1)) by (unfold getOrCreateChainKey; rewrite Ef; exact E1).
      rewrite Hsc in E1.
      destruct (key32 (s_root s)) as [root| |] eqn:Er; cbn [bind] in E1; try discriminate E1.
      apply key32_inv in Er. destruct Er as [-> _]. rewrite (sa_root _ _ _ _ _ _ _ _ HSt) in E1. cbn [ch_rpriv ch_rpub ch_ck] in E1.
      destruct (key32 x) as [x'| |] eqn:Ex; cbn [bind] in E1; try discriminate E1.
      apply key32_inv in Ex. destruct Ex as [-> _].
      destruct (key32 (cur a p)) as [pk| |] eqn:Ep; cbn [bind] in E1; try discriminate E1. clear pk Ep.
      rewrite (createChain_at C OK priv a p rk x rk Hx) in E1 by (rewrite <- Hp; symmetry; now apply ev_adh).
      rewrite (createChain_at C OK priv a (rk :: p) (basepub C (clamp rnd)) (clamp rnd) rk Hn) in E1
        by (cbn [cur]; symmetry; now apply ev_adh').
      destruct (load_ck (Some (ck_at a p i))) as [c| |] eqn:El; cbn [bind] in E1; try discriminate E1.
      cbv zeta in E1. injection E1 as <- <-. set (p' := basepub C (clamp rnd) :: rk :: p).
      destruct (ActiveLink.gocck_at C OK priv priv_ok bases signeds me a p s rk rnd _ _ HSt Hn E1')
        as (p2 & HS2 & _ & _ & _).
      assert (HSp : state_at me a p' (with_sender (with_prev (with_recv (with_root s (ev (a_root a p')))
          (addReceiverChain (s_recv (with_root s (ev (a_root a p')))) rk (ck_at a (rk :: p) 0))) (if ck_index c >? 0 then ck_index c - 1 else ck_index c))
          (Some (mkChain (basepub C (clamp rnd)) (clamp rnd) (Some (ck_at a p' 0)) [])))).
      { constructor.
        - apply (sa_version _ _ _ _ _ _ _ _ HSt).
        - apply (sa_local _ _ _ _ _ _ _ _ HSt).
        - apply (sa_role _ _ _ _ _ _ _ _ HSt).
        - reflexivity.
        - exact (sa_prev _ _ _ _ _ _ _ _ HS2).
        - exists (clamp rnd), 0%nat, []. split; [exact Hn|]. split; reflexivity.
        - cbn [with_sender with_prev with_recv with_root s_recv]. apply addReceiver_at; [|apply suffix_cons, suffix_refl].
          eapply Forall_impl; [|exact (sa_recv _ _ _ _ _ _ _ _ HSt)]. intros d Hd. now apply chain_at_cons, chain_at_cons. }
      set (new := (rk :: p, 0%nat, @nil nat) : gch). set (K := G ++ [new]).
      assert (HK : Forall2 (chain_g a p') (s_recv s ++ [mkChain rk [] (Some (ck_at a (rk :: p) 0)) []]) K).
      { apply Forall2_app.
        - eapply Forall2_imp; [|exact HG]. intros. now apply chain_g_cons, chain_g_cons.
        - constructor; [|constructor]. split; [apply suffix_cons, suffix_refl|]. cbn. repeat split; constructor. }
      assert (LG : forall g, In g G -> (length (gpath g) <= length p)%nat).
      { clear -HG. induction HG as [|c g l K Hc HF IH]; [intros g []|]. intros g0 [<-|Hg]; [|auto].
        apply suffix_len. apply Hc. }
      assert (NDK : NoDup (map (fun g => length (gpath g)) K)).
      { unfold K. rewrite map_app. cbn [map]. apply nodup_snoc; [exact ND|]. intros HI. apply in_map_iff in HI.
        destruct HI as (g & Eg & HI). apply LG in HI. cbn [gpath new fst length] in Eg. lia. }
      assert (HUK : forall q0 j, U (a_ck a q0 j) -> (length q0 <= length p')%nat /\
         forall g, In g K -> length (gpath g) = length q0 -> (j < snd (fst g))%nat /\ ~ In j (snd g)).
      { intros q0 j Hu. destruct (HU _ _ Hu) as [L0 Hg]. split; [cbn [length p']; lia|]. intros g HI Eg.
        apply in_app_or in HI. destruct HI as [HI|[<-|[]]]; [auto|]. cbn [gpath new fst length] in Eg. lia. }
      assert (FIN : forall l K', (l = s_recv s ++ [mkChain rk [] (Some (ck_at a (rk :: p) 0)) []] /\ K' = K) \/
          (l = tl (s_recv s ++ [mkChain rk [] (Some (ck_at a (rk :: p) 0)) []]) /\ K' = tl K /\ s_recv s <> []) ->
          exists rc q i0 js, find_chain rk l = Some rc /\ Forall2 (chain_g a p') l K' /\
           NoDup (map (fun g => length (gpath g)) K') /\ ck_at a (rk :: p) 0 = ck_at a q i0 /\
           (forall q0 j, U (a_ck a q0 j) -> (length q0 <= length p')%nat /\
             forall g, In g K' -> length (gpath g) = length q0 -> (j < snd (fst g))%nat /\ ~ In j (snd g)) /\
           chain_g a p' rc (q, i0, js) /\
           exists l1 l2 K1 K2, l = l1 ++ rc :: l2 /\ K' = K1 ++ (q, i0, js) :: K2 /\ Forall2 (chain_g a p') l1 K1 /\
             Forall2 (chain_g a p') l2 K2 /\ forall f, upd_chain rk f l = l1 ++ f rc :: l2).
      { intros l K' Hc.
        assert (A1 : exists l1 K1, l = l1 ++ [mkChain rk [] (Some (ck_at a (rk :: p) 0)) []] /\ K' = K1 ++ [new] /\
            find_chain rk l1 = None /\ Forall2 (chain_g a p') l1 K1 /\ NoDup (map (fun g => length (gpath g)) K') /\
            (forall g, In g K' -> In g K)).
        { assert (HG' : Forall2 (chain_g a p') (s_recv s) G).
          { eapply Forall2_imp; [|exact HG]. intros. now apply chain_g_cons, chain_g_cons. }
          destruct Hc as [[-> ->]|(-> & -> & Hne)].
          - exists (s_recv s), G. auto 7.
          - unfold K in *. destruct HG' as [|d g l K0 Hd HF]; [congruence|]. cbn [app tl map] in *.
            exists l, K0. split; [reflexivity|]. split; [reflexivity|]. split.
            { cbn [find_chain] in Ef. destruct (beq rk (ch_rpub d)); [discriminate Ef|exact Ef]. }
            split; [exact HF|]. split; [now inversion NDK|]. intros g0 Hg. now right. }
        destruct A1 as (l1 & K1 & -> & -> & A2 & A3 & A4 & A5).
        exists (mkChain rk [] (Some (ck_at a (rk :: p) 0)) []), (rk :: p), 0%nat, [].
        assert (A6 : chain_g a p' (mkChain rk [] (Some (ck_at a (rk :: p) 0)) []) new).
        { split; [apply suffix_cons, suffix_refl|]. cbn. repeat split; constructor. }
        split; [now apply find_snoc|]. split; [apply Forall2_app; [exact A3|constructor; [exact A6|constructor]]|].
        split; [exact A4|]. split; [reflexivity|].
        split; [intros q0 j Hu; destruct (HUK _ _ Hu) as [L0 Hg]; split; [exact L0|]; intros g HI; apply Hg; auto|].
        split; [exact A6|]. exists l1, [], K1, []. split; [reflexivity|]. split; [reflexivity|]. split; [exact A3|].
        split; [constructor|]. intros f. now apply upd_snoc. }
      unfold addReceiverChain in *. cbv zeta in *.
      destruct (Nat.ltb 5 _) eqn:EL.
      + assert (NE : s_recv s <> []).
        { intros E0. cbn [with_root s_recv] in EL. rewrite E0 in EL. discriminate EL. }
        destruct (FIN _ (tl K) (or_intror (conj eq_refl (conj eq_refl NE))))
          as (rc & q & i0 & js & B1 & B2 & B3 & B4 & B5 & B6 & B7).
        exists p', (tl K), rc, q, i0, js. split; [exact HSp|]. do 2 (split; [reflexivity|]). auto 10.
      + destruct (FIN _ K (or_introl (conj eq_refl eq_refl)))
          as (rc & q & i0 & js & B1 & B2 & B3 & B4 & B5 & B6 & B7).
        exists p', K, rc, q, i0, js. split; [exact HSp|]. do 2 (split; [reflexivity|]). auto 10.
Qed.
(* the key of a message *)
Lemma key_located (U : aterm -> Prop) a p' (s1 : sstate) rk G rc q i js l1 l2 K1 K2 counter mk s2 :
  (forall q0 j, U (a_ck a q0 j) -> (length q0 <= length p')%nat /\
       forall g, In g G -> length (gpath g) = length q0 -> (j < snd (fst g))%nat /\ ~ In j (snd g)) ->
  find_chain rk (s_recv s1) = Some rc -> chain_g a p' rc (q, i, js) -> G = K1 ++ (q, i, js) :: K2 ->
  (forall f, upd_chain rk f (s_recv s1) = l1 ++ f rc :: l2) ->
  getOrCreateMessageKeys C s1 rk (ck_at a q i) counter = (Ok mk, s2) ->
  exists j i' js', mk = mk_at a q j /\ ~ U (a_ck a q j) /\ s_base s2 = s_base s1 /\
     s_recv s2 = l1 ++ mkChain (ch_rpub rc) (ch_rpriv rc) (Some (ck_at a q i')) (map (mk_at a q) js') :: l2 /\
     (j < i')%nat /\ ~ In j js' /\ NoDup js' /\ Forall (fun x => (x < i')%nat) js' /\ (i <= i')%nat /\
     (forall x, (x < i)%nat -> ~ In x js -> ~ In x js').
Proof.
  intros HU Ef (Q1 & Q2 & Q3 & Q4 & Q5) EG EU E2. cbn [gpath fst snd] in Q1, Q2, Q3, Q4, Q5.
  unfold getOrCreateMessageKeys in E2. rewrite Ef in E2.
    assert (HIn : In (q, i, js) G) by (rewrite EG; apply in_or_app; right; now left).
    assert (HNU : forall j, U (a_ck a q j) -> (j < i)%nat /\ ~ In j js).
    { intros j Hu. destruct (HU _ _ Hu) as [_ Hg]. apply (Hg (q, i, js)); auto. }
    destruct (_ >? _).
    - rewrite Q3 in E2. destruct (take_mk (counter) (map (mk_at a q) js)) as [[k rest]|] eqn:Et; [|discriminate E2].
      injection E2 as <- <-. destruct (take_split _ _ _ _ _ _ Et) as (j1 & j & j2 & Ej & -> & ->).
      exists j, i, (j1 ++ j2). split; [reflexivity|]. split; [intros Hu; apply (proj2 (HNU _ Hu)); rewrite Ej; apply in_or_app; right; now left|].
      split; [reflexivity|]. split; [cbn [with_recv s_recv]; now rewrite EU, Q2|].
      rewrite Ej in Q4, Q5. rewrite Forall_app in Q5. destruct Q5 as [Q5 Q6]. inversion Q6; subst.
      split; [assumption|]. split; [now apply NoDup_remove_2 in Q4|]. split; [now apply NoDup_remove_1 in Q4|].
      split; [now apply Forall_app|]. split; [lia|]. intros x _ Hx HI. apply Hx. apply in_app_or in HI. apply in_or_app. cbn [In]. tauto.
    - destruct (too_far _ _ _); [discriminate E2|].
      rewrite skip_keys_spec, ckn_at in E2. injection E2 as <- <-. set (d := Z.to_nat (counter - ck_index (ck_at a q i))).
      exists (i + d)%nat, (S (i + d)), (js ++ map (fun x => (i + x)%nat) (seq 0 d)).
      split; [apply (keys_at C OK)|]. split; [intros Hu; apply HNU in Hu; lia|]. split; [reflexivity|].
      assert (S1 : forall x, In x (map (fun x => (i + x)%nat) (seq 0 d)) -> (i <= x < i + d)%nat).
      { intros x Hx. apply in_map_iff in Hx. destruct Hx as (y & <- & Hy). apply in_seq in Hy. lia. }
      assert (S2 : forall x, In x js -> (x < i)%nat) by now apply Forall_forall.
      split. { cbn [with_recv s_recv]. rewrite EU, next_at, Q3, map_app, map_map. do 4 f_equal. apply map_ext.
               intros x. now rewrite ckn_at, (keys_at C OK). }
      split; [lia|]. split; [intros Hx; apply in_app_or in Hx; destruct Hx as [Hx|Hx]; [apply S2 in Hx|apply S1 in Hx]; lia|].
      split.
      { apply nodup_app'; [exact Q4| |].
        - apply FinFun.Injective_map_NoDup; [intros x y; lia|apply seq_NoDup].
        - intros x Hx Hy. apply S2 in Hx. apply S1 in Hy. lia. }
      split. { apply Forall_forall. intros x Hx. apply in_app_or in Hx. destruct Hx as [Hx|Hx]; [apply S2 in Hx|apply S1 in Hx]; lia. }
      split; [lia|]. intros x Hl Hx HI. apply in_app_or in HI. destruct HI as [HI|HI]; [auto|]. apply S1 in HI. lia.
Qed.
Lemma decrypt_new U me a p s m rnd pt s' : holds U me a p s -> mine (clamp rnd) ->
  ss_decrypt C s m rnd = (Ok pt, s') ->
  exists p' q j, ~ U (a_ck a q j) /\ holds (fun t => U t \/ t = a_ck a q j) me a p' s' /\
    suffix q p' /\ s_remote s' = s_remote s /\ length (s_remote s') = 32%nat /\ length me = 32%nat /\
    verifyMAC C m (s_remote s') me (ev (a_mk a q j 32 32)) = true /\
    Decrypt C (ev (a_mk a q j 0 32)) (ev (a_mk a q j 64 16) ++ wm_ct m) = Ok pt.
Proof.
  intros HH Hn H. unfold ss_decrypt in H. destruct (s_sender s) as [sc|]; [|discriminate H].
  destruct (negb _); [discriminate H|].
  destruct (getOrCreateChainKey C s (wm_rkey m) rnd) as [[c0 s1]| |] eqn:E1; [|discriminate H..].
  pose proof (chain_located _ _ _ _ _ _ _ _ _ HH Hn E1) as G1.
  destruct G1 as (p' & G & rc & q & i & js & HS1 & HR1 & HB1 & Ef & HG & ND & -> & HU & Hrc & l1 & l2 & K1 & K2 & El & EG & F1 & F2 & EU).
  destruct (getOrCreateMessageKeys C s1 (wm_rkey m) (ck_at a q i) (wm_counter m)) as [r2 s2] eqn:E2.
  destruct Hrc as (Q1 & Q2 & Q3 & Q4 & Q5). cbn [gpath fst snd] in Q1, Q2, Q3, Q4, Q5.
  destruct (ActiveLink.gocmk_at C OK priv bases signeds me a p' s1 (wm_rkey m) rc q i (wm_counter m) r2 s2 HS1 Ef Q1 Q2) as (HS2 & HR2 & _).
  { rewrite Q3. apply Forall_forall. intros mk Hmk. apply in_map_iff in Hmk. destruct Hmk as (j & <- & _). eauto. }
  { exact E2. }
  (* the key *)
  assert (G2 : forall mk, r2 = Ok mk -> exists j i' js', mk = mk_at a q j /\ ~ U (a_ck a q j) /\ s_base s2 = s_base s1 /\
     s_recv s2 = l1 ++ mkChain (ch_rpub rc) (ch_rpriv rc) (Some (ck_at a q i')) (map (mk_at a q) js') :: l2 /\
     (j < i')%nat /\ ~ In j js' /\ NoDup js' /\ Forall (fun x => (x < i')%nat) js' /\ (i <= i')%nat /\
     (forall x, (x < i)%nat -> ~ In x js -> ~ In x js')).
  { intros mk ->. apply (key_located U a p' s1 (wm_rkey m) G rc q i js l1 l2 K1 K2 (wm_counter m) mk s2 HU Ef); auto.
    split; [exact Q1|]. cbn. auto. }
  destruct r2 as [mk| |]; [|discriminate H..].
  destruct (G2 mk eq_refl) as (j & i' & js' & -> & NU & HB2 & Er & Lj & Nj & ND' & F' & Li & Keep).
  destruct (key32 (s_remote s2)) as [rem| |] eqn:Erem, (key32 (s_local s2)) as [loc| |] eqn:Eloc; try discriminate H.
  apply key32_inv in Erem, Eloc. destruct Erem as [-> Lr], Eloc as [-> Ll].
  rewrite (sa_local _ _ _ _ _ _ _ _ HS2) in *. cbn [mk_mac mk_cipher mk_iv ActiveLink.mk_at] in H.
  destruct (verifyMAC _ _ _ _ _) eqn:EV; cbn [negb] in H; [|discriminate H].
  destruct (Decrypt _ _ _) as [pt0| |] eqn:ED; try discriminate H. injection H as <- <-.
  exists p', q, j. split; [exact NU|]. split.
  { constructor.
    - constructor; apply HS2.
    - apply HH.
    - cbn [with_pending s_base]. rewrite HB2, HB1. apply HH.
    - cbn [with_pending s_recv]. rewrite Er. exists (K1 ++ (q, i', js') :: K2). split; [|split].
      + apply Forall2_app; [exact F1|]. constructor; [|exact F2]. split; [exact Q1|]. cbn. auto.
      + rewrite EG in ND. rewrite map_app in ND |- *. exact ND.
      + intros q0 j0 [Hu|Hu].
        * destruct (HU _ _ Hu) as [L0 Hg]. split; [exact L0|]. intros g HI Eg. rewrite EG in Hg.
          apply in_app_or in HI. destruct HI as [HI|[<-|HI]].
          -- apply Hg; [apply in_or_app; now left|exact Eg].
          -- cbn [gpath fst snd] in *. destruct (Hg (q, i, js)) as [Hg1 Hg2]; [apply in_or_app; right; now left|exact Eg|].
             cbn [fst snd] in Hg1, Hg2. split; [lia|auto].
          -- apply Hg; [apply in_or_app; right; now right|exact Eg].
        * apply ck_same in Hu. destruct Hu as (-> & L0 & _). split; [rewrite L0; now apply suffix_len|].
          intros g HI Eg. rewrite EG, map_app in ND. cbn [map] in ND. apply NoDup_remove_2 in ND.
          apply in_app_or in HI. destruct HI as [HI|[<-|HI]].
          -- exfalso. apply ND. apply in_or_app. left. apply in_map_iff. exists g. split; [cbn [gpath fst]; congruence|exact HI].
          -- cbn [fst snd]. auto.
          -- exfalso. apply ND. apply in_or_app. right. apply in_map_iff. exists g. split; [cbn [gpath fst]; congruence|exact HI]. }
  cbn [with_pending s_remote]. split; [exact Q1|]. split; [congruence|]. auto.
Qed.

(* ------------------------------------------------------------------------------------------ *)
(* a session begun by a message *)
Lemma opened_at w rid dev ty b m r1 : node_ok w -> opened C w rid dev ty b m r1 ->
  r1 = LoadSession w rid dev \/
  exists base a, hasSessionState (LoadSession w rid dev) 3 (key_ser base) = false /\ ag_base a = base /\
    state_at (snd (w_ident w)) a [] (r_cur r1) /\ ag_resp a = snd (w_ident w) /\ s_base (r_cur r1) = key_ser base /\
    s_recv (r_cur r1) = [] /\ s_sender (r_cur r1) <> None /\
    r_prevs r1 = r_prevs (if r_fresh (LoadSession w rid dev) then LoadSession w rid dev else archiveCurrentState (LoadSession w rid dev)).
Proof.
  intros HW HO. destruct ty; [left; apply HO|]. destruct HO as (pm & pkid & l & HL & -> & H).
  unfold BuildReceiverSession in H.
  destruct (pk_version pm =? currentVersion) eqn:EV; cbn [negb] in H; [|discriminate H].
  destruct (negb _); [discriminate H|].
  destruct (hasSessionState _ _ _) eqn:EH; [left; injection H as _ <- _; reflexivity|]. right.
  apply Z.eqb_eq in EV. rewrite EV in EH. cbv zeta in H. destruct (w_spk w (pk_spkid pm)) as [spk|] eqn:Es; cbn [of_option bind] in H; [|discriminate H].
  unfold load_kp in H at 1.
  destruct (key32 (fst spk)) as [x| |] eqn:E1; cbn [bind] in H; try discriminate H.
  destruct (key32 (snd spk)) as [y| |] eqn:E2; cbn [bind] in H; try discriminate H.
  apply key32_inv in E1, E2. destruct E1 as [-> _], E2 as [-> _]. cbn [fst snd] in H.
  destruct (no_spk _ _ _ _ _ HW _ _ Es) as (Hm & Hp & Hg).
  assert (HO : exists otk : res (option bytes), (if pk_pkid pm =? 0 then Ok None
        else let* kp := of_option EPreKeyNotFound (w_pre w (pk_pkid pm)) in
             let* kp := load_kp kp in Ok (Some (fst kp))) = otk /\
        forall x, otk = Ok (Some x) -> mine x).
  { eexists. split; [reflexivity|]. intros x. destruct (pk_pkid pm =? 0); [intros E; discriminate E|].
    destruct (w_pre w (pk_pkid pm)) as [kp|] eqn:Ep; cbn [of_option bind]; [|intros E; discriminate E].
    unfold load_kp. destruct (key32 (fst kp)) eqn:K1; cbn [bind]; try (intros E; discriminate E).
    destruct (key32 (snd kp)) eqn:K2; cbn [bind]; try (intros E; discriminate E). cbn [fst].
    apply key32_inv in K1. destruct K1 as [-> _]. intros E. injection E as <-. now apply (no_pre _ _ _ _ _ HW _ _ Ep). }
  destruct HO as (otk & EO & HO). rewrite EO in H. clear EO.
  destruct otk as [otk| |]; cbn [bind] in H; [|discriminate H..].
  injection H as _ <- _.
  destruct (archived_ok C priv bases signeds (snd (w_ident w)) (LoadSession w rid dev) (load_ok C priv bases signeds w rid dev HW) (load_fresh w rid dev)) as [_ HE].
  cbn [r_cur r_prevs]. rewrite HE. destruct (no_ident _ _ _ _ _ HW) as [Hi Hpi].
  set (a := mkAg (pk_ident pm) (pk_base pm) (snd (w_ident w)) (snd spk)
                (match otk with Some x => Some (basepub C x) | None => None end)).
  exists (pk_base pm), a. split; [exact EH|]. split; [reflexivity|].
  assert (EK : diversifier ++ dh C (fst spk) (pk_ident pm) ++ dh C (fst (w_ident w)) (pk_base pm) ++ dh C (fst spk) (pk_base pm)
       ++ match otk with Some k => dh C k (pk_base pm) | None => [] end = ev (a_km a)).
  { unfold a_km, a. cbn [ag_spk ag_init ag_resp ag_base ag_otk aeval]. rewrite <- Hp, <- Hpi.
    rewrite !(ev_adh C OK priv priv_ok) by assumption. repeat f_equal. destruct otk; [rewrite (ev_adh C OK priv priv_ok); auto|reflexivity]. }
  unfold initializeReceiverSession. cbv zeta. rewrite EK, (derived_at C OK priv).
  split; [|do 3 (split; [reflexivity|]); split; [cbn; discriminate|reflexivity]].
  constructor.
  + reflexivity.
  + reflexivity.
  + right. repeat split. exact Hg.
  + reflexivity.
  + cbn. lia.
  + exists (fst spk), 0%nat, []. split; [exact Hm|]. split; [exact Hp|reflexivity].
  + constructor.
Qed.

(* a session begun by the client *)
Lemma built_at w b spk rbase rratchet : node_ok w -> mine (clamp rbase) -> mine (clamp rratchet) -> bases (basepub C (clamp rbase)) ->
  let s := with_regs (with_pending (initializeSenderSession C empty_ss (snd (w_ident w)) (fst (w_ident w)) (clamp rbase)
                (b_ident b) spk (b_pk b) rratchet) (Some (mkPending (b_pkid b) (b_spkid b) (key_ser (basepub C (clamp rbase))))))
         (b_reg b) (w_reg w) (key_ser (basepub C (clamp rbase))) in
  exists a k c, ag_init a = snd (w_ident w) /\ ag_base a = basepub C (clamp rbase) /\ state_at (snd (w_ident w)) a [k] s /\
    s_recv s = [c] /\ chain_g a [k] c ([k], 0%nat, []).
Proof.
  intros HW Hb Hr HB s. destruct (no_ident _ _ _ _ _ HW) as [Hi Hp].
  set (a := mkAg (snd (w_ident w)) (basepub C (clamp rbase)) (b_ident b) spk (b_pk b)).
  exists a, (basepub C (clamp rratchet)).
  assert (EK : diversifier ++ dh C (fst (w_ident w)) spk ++ dh C (clamp rbase) (b_ident b) ++ dh C (clamp rbase) spk
     ++ match b_pk b with Some k => dh C (clamp rbase) k | None => [] end = ev (a_km a)).
  { unfold a_km, a. cbn [ag_spk ag_init ag_resp ag_base ag_otk aeval]. rewrite <- Hp.
    rewrite !(ev_adh' C OK priv priv_ok) by assumption. repeat f_equal. destruct (b_pk b); [now rewrite (ev_adh' C OK priv priv_ok)|reflexivity]. }
  unfold s, initializeSenderSession. cbv zeta. rewrite EK, (derived_at C OK priv).
  rewrite (createChain_at C OK priv a [] (basepub C (clamp rratchet)) (clamp rratchet) spk Hr)
    by (cbn [cur ag_spk a]; symmetry; now apply (ev_adh' C OK priv priv_ok)).
  eexists. split; [reflexivity|]. split; [reflexivity|]. split; [|split; [reflexivity|]].
  - constructor.
    + reflexivity.
    + reflexivity.
    + left. repeat split. exact HB.
    + reflexivity.
    + cbn. lia.
    + exists (clamp rratchet), 0%nat, []. split; [exact Hr|]. split; reflexivity.
    + cbn. constructor; [|constructor]. exists [basepub C (clamp rratchet)], 0%nat.
      split; [apply suffix_refl|]. split; [reflexivity|constructor].
  - split; [apply suffix_refl|]. cbn. repeat split; constructor.
Qed.

(* ------------------------------------------------------------------------------------------ *)
(* The record of a peer: every place taken belongs to a session that the record still has *)
Definition from_states (U : aterm -> Prop) (me : bytes) (l : list sstate) : Prop :=
  forall t, U t -> exists a q j s, t = a_ck a q j /\ side me a /\ In s l /\ s_version s = 3 /\ s_base s = key_ser (ag_base a).
Definition taken_at (U : aterm -> Prop) (w : world) (rid : bytes) (dev : Z) : Prop :=
  match w_sess w rid dev with
  | None => forall t, ~ U t
  | Some (s, ps) => (exists a p, holds U (snd (w_ident w)) a p s) /\ from_states U (snd (w_ident w)) (s :: ps)
  end.

Lemma key_ser_inj a b : key_ser a = key_ser b -> a = b.
Proof. unfold key_ser. intros H. now injection H. Qed.
Lemma new_holds U me l a p s : from_states U me l -> state_at me a p s -> side me a -> s_base s = key_ser (ag_base a) ->
  (forall x, In x l -> s_version x = 3 -> s_base x <> key_ser (ag_base a)) ->
  (s_recv s = [] \/ exists k c, p = [k] /\ s_recv s = [c] /\ chain_g a p c ([k], 0%nat, [])) -> holds U me a p s.
Proof.
  intros HF HS HD HB HN HC.
  assert (NU : forall q j, ~ U (a_ck a q j)).
  { intros q j Hu. destruct (HF _ Hu) as (a' & q' & j' & x & E1 & E2 & E3 & E4 & E5).
    apply ck_same in E1. destruct E1 as (_ & _ & E1). apply (HN x E3 E4). rewrite E5. f_equal. symmetry. now apply (km_base me). }
  constructor; auto. destruct HC as [->|(k & c & -> & -> & HC)].
  - exists []. split; [constructor|]. split; [constructor|]. intros q j Hu. now apply NU in Hu.
  - exists [([k], 0%nat, [])]. split; [constructor; [exact HC|constructor]|]. split; [repeat constructor; intros []|].
    intros q j Hu. now apply NU in Hu.
Qed.
Lemma no_state r v k x : hasSessionState r v k = false -> In x (r_cur r :: r_prevs r) -> getSessionVersion x = v -> s_base x <> k.
Proof.
  intros H HI HV E. unfold hasSessionState in H.
  assert (HT : existsb (fun s => (getSessionVersion s =? v) && beq k (s_base s)) (r_cur r :: r_prevs r) = true).
  { apply existsb_exists. exists x. split; [exact HI|]. rewrite HV, Z.eqb_refl, E, beq_refl. reflexivity. }
  congruence.
Qed.
(* nothing is dropped from the record while it is short *)
Definition short (w : world) (rid : bytes) (dev : Z) : Prop :=
  forall s ps, w_sess w rid dev = Some (s, ps) -> (length ps < 40)%nat.
Lemma arch_prevs w rid dev : short w rid dev ->
  r_prevs (if r_fresh (LoadSession w rid dev) then LoadSession w rid dev else archiveCurrentState (LoadSession w rid dev)) =
  match w_sess w rid dev with None => [] | Some (s, ps) => s :: ps end.
Proof.
  intros HS. unfold short, LoadSession in *. destruct (w_sess w rid dev) as [[s ps]|]; [|reflexivity].
  cbn [r_fresh archiveCurrentState promoteState r_prevs r_cur]. unfold archiveCurrentState, promoteState. cbn [r_cur r_prevs].
  specialize (HS _ _ eq_refl). destruct (Nat.ltb_spec 40 (length (s :: ps))) as [HL|]; [cbn [length] in HL; lia|reflexivity].
Qed.
Lemma from_more U me l l' : (forall x, In x l -> In x l') -> from_states U me l -> from_states U me l'.
Proof. intros H HF t Ht. destruct (HF t Ht) as (a & q & j & s & H1 & H2 & H3 & H4). exists a, q, j, s. auto 7. Qed.
Lemma from_head U me s s' l : s_version s' = s_version s -> s_base s' = s_base s -> from_states U me (s :: l) -> from_states U me (s' :: l).
Proof.
  intros E1 E2 HF t Ht. destruct (HF t Ht) as (a & q & j & x & H1 & H2 & H3 & H4 & H5). destruct H3 as [<-|H3].
  - exists a, q, j, s'. rewrite E1, E2. split; [exact H1|]. split; [exact H2|]. split; [now left|auto].
  - exists a, q, j, x. split; [exact H1|]. split; [exact H2|]. split; [now right|auto].
Qed.
Lemma holds_enc U me a p s pt b ty s' : holds U me a p s -> ss_encrypt C s pt = Ok (b, ty, s') ->
  holds U me a p s' /\ s_version s' = s_version s /\ s_base s' = s_base s.
Proof.
  intros HH H. assert (HS := ho_state _ _ _ _ _ HH). unfold ss_encrypt in H.
  destruct (sa_sender _ _ _ _ _ _ _ _ HS) as (x & i & mks & Hx & Hp & Hsc). rewrite Hsc in H. cbn [ch_ck ch_rpub ch_rpriv ch_mks] in H.
  destruct (load_ck (Some (ck_at a p i))) as [c| |] eqn:EL; cbn [bind] in H; try discriminate H.
  apply load_at in EL. subst c. 
  destruct (key32 (cur a p)) as [rk| |] eqn:ER; cbn [bind] in H; try discriminate H.
  destruct (Encrypt _ _ _ _) as [ct| |]; cbn [bind] in H; try discriminate H.
  destruct (key32 (s_local s)) as [loc| |]; cbn [bind] in H; try discriminate H.
  destruct (key32 (s_remote s)) as [rem| |]; cbn [bind] in H; try discriminate H.
  assert (E : s' = with_sender s (Some (mkChain (cur a p) x (Some (getNextChainKey C (ck_at a p i))) mks))).
  { destruct (s_pending s) as [pp|].
    - destruct (key_unser (pp_base pp)) as [base| |]; cbn [bind] in H; try discriminate H. now injection H as <- <- <-.
    - now injection H as <- <- <-. }
  subst s'. split; [|split; reflexivity]. constructor; try apply HH.
  constructor; try apply HS. exists x, (S i), mks. split; [exact Hx|]. split; [exact Hp|]. cbn [with_sender s_sender].
  now rewrite next_at.
Qed.

(* the base key drawn for a session is not the own identity key and not the base key of a session of
   the record *)
Definition fresh_base (w : world) (c : call) : Prop :=
  match c with
  | CBuild rid dev _ rbase _ => basepub C (clamp rbase) <> snd (w_ident w) /\
      forall s ps x, w_sess w rid dev = Some (s, ps) -> In x (s :: ps) -> s_base x <> key_ser (basepub C (clamp rbase))
  | _ => True
  end.
Definition own_keys (c : call) : Prop :=
  match c with
  | CEnc _ _ _ => True
  | CRecv _ _ _ _ rnd => forall i, mine (clamp (rnd i))
  | CBuild _ _ _ rbase rratchet => mine (clamp rbase) /\ mine (clamp rratchet) /\ bases (basepub C (clamp rbase))
  end.

Lemma recv_new U w rid dev ty b rnd m r1 pt r' : node_ok w -> taken_at U w rid dev -> short w rid dev ->
  (forall i, mine (clamp (rnd i))) -> opened C w rid dev ty b m r1 -> sc_decrypt C r1 m rnd = (Ok pt, r') ->
  (exists pt' s', ss_decrypt C (r_cur r1) m (rnd 0%nat) = (Ok pt', s')) ->
  exists a p q j, ~ U (a_ck a q j) /\ state_at (snd (w_ident w)) a p (r_cur r') /\ length (s_remote (r_cur r')) = 32%nat /\
    length (snd (w_ident w)) = 32%nat /\
    verifyMAC C m (s_remote (r_cur r')) (snd (w_ident w)) (ev (a_mk a q j 32 32)) = true /\
    Decrypt C (ev (a_mk a q j 0 32)) (ev (a_mk a q j 64 16) ++ wm_ct m) = Ok pt /\
    holds (fun t => U t \/ t = a_ck a q j) (snd (w_ident w)) a p (r_cur r') /\
    from_states (fun t => U t \/ t = a_ck a q j) (snd (w_ident w)) (r_cur r' :: r_prevs r').
Proof.
  intros HW HT HSh Hn HO HD (pt' & s' & HDr). set (me := snd (w_ident w)) in *.
  unfold sc_decrypt in HD. rewrite HDr in HD. injection HD as -> <-. cbn [r_cur r_prevs].
  assert (G : exists a p, holds U me a p (r_cur r1) /\ from_states U me (r_cur r1 :: r_prevs r1)).
  { destruct (opened_at _ _ _ _ _ _ _ HW HO) as [->|(base & a & H1 & H2 & H3 & H4 & H5 & H6 & H7 & H8)].
    - unfold taken_at, LoadSession in *. destruct (w_sess w rid dev) as [[s ps]|].
      + destruct HT as [(a & p & HH) HF]. exists a, p. auto.
      + discriminate HDr.
    - rewrite (arch_prevs _ _ _ HSh) in H8.
      assert (HF : from_states U me (r_prevs r1)).
      { rewrite H8. unfold taken_at in HT. destruct (w_sess w rid dev) as [[s ps]|]; [apply HT|].
        intros t Ht. now apply HT in Ht. }
      exists a, []. split.
      + apply (new_holds U me (r_prevs r1)); auto.
        * now right.
        * now rewrite H2.
        * intros x Hx Hv. rewrite H2. apply (no_state _ _ _ _ H1).
          -- rewrite H8 in Hx. unfold LoadSession. destruct (w_sess w rid dev) as [[s ps]|]; [exact Hx|destruct Hx].
          -- unfold getSessionVersion. rewrite Hv. reflexivity.
      + eapply from_more; [|exact HF]. intros x Hx. now right. }
  destruct G as (a & p & HH & HF).
  destruct (decrypt_new U me a p _ _ _ _ _ HH (Hn 0%nat) HDr) as (p' & q & j & N1 & N2 & N3 & N4 & N5 & N6 & N7 & N8).
  exists a, p', q, j. split; [exact N1|]. split; [apply N2|]. do 5 (split; [assumption|]).
  assert (EB : s_base s' = s_base (r_cur r1)) by (rewrite (ho_base _ _ _ _ _ N2), (ho_base _ _ _ _ _ HH); reflexivity).
  assert (EV : s_version s' = s_version (r_cur r1)).
  { rewrite (sa_version _ _ _ _ _ _ _ _ (ho_state _ _ _ _ _ N2)), (sa_version _ _ _ _ _ _ _ _ (ho_state _ _ _ _ _ HH)). reflexivity. }
  intros t [Ht|Ht].
  - now apply (from_head U me (r_cur r1) s' (r_prevs r1) EV EB HF).
  - exists a, q, j, s'. split; [exact Ht|]. split; [apply HH|]. split; [now left|].
    split; [apply (ho_state _ _ _ _ _ N2)|apply N2].
Qed.


Lemma recv_done w rid dev ty b rnd pt l : receive C w rid dev ty b rnd = (Ok pt, l) ->
  exists wh m r1 r', whisper_of ty b = Some wh /\ LoadWhisperMessage wh = Ok m /\ opened C w rid dev ty b m r1 /\
    sc_decrypt C r1 m rnd = (Ok pt, r') /\ w_sess (apply_effs w l) rid dev = Some (r_cur r', r_prevs r').
Proof.
  intros H.
  assert (LAST : forall x r', w_sess (apply_effs w (x ++ [StoreSession rid dev r'])) rid dev = Some (r_cur r', r_prevs r')).
  { intros x r'. unfold apply_effs, StoreSession. rewrite fold_left_app. cbn [fold_left apply_eff set_sess w_sess].
    now rewrite beq_refl, Z.eqb_refl. }
  destruct ty; cbn [receive] in H.
  - destruct (LoadWhisperMessage b) as [m| |] eqn:EL; [|discriminate H..].
    unfold SessionDecryptWhisperMessage in H. destruct (sc_decrypt C (LoadSession w rid dev) m rnd) as [o1 r1] eqn:ES.
    destruct o1; try discriminate H. injection H as <- <-. exists b, m, (LoadSession w rid dev), r1.
    split; [reflexivity|]. split; [exact EL|]. split; [split; [exact EL|reflexivity]|]. split; [exact ES|]. apply (LAST []).
  - destruct (LoadPreKeyWhisperMessage b) as [m| |] eqn:EL; [|discriminate H..].
    unfold SessionDecryptPreKeyWhisperMessage in H.
    destruct (BuildReceiverSession C w rid (LoadSession w rid dev) m) as [o0 l0] eqn:EB.
    destruct o0 as [[pkid r1]| |]; [|discriminate H..].
    destruct (sc_decrypt C r1 (pk_msg m) rnd) as [o1 r'] eqn:ES. destruct o1; try discriminate H. injection H as <- <-.
    destruct (LoadPre_ser _ _ EL) as (wh & E1 & E2). exists wh, (pk_msg m), r1, r'.
    split; [exact E1|]. split; [exact E2|]. split; [exists m, pkid, l0; auto|]. split; [exact ES|].
    rewrite app_assoc. apply LAST.
Qed.

(* Every step keeps the account of the places taken. *)
Lemma step_taken (U : aterm -> Prop) w e rid dev : node_ok w -> taken_at U w rid dev -> short w rid dev ->
  own_keys (ecall e) -> (peer_of (ecall e) = (rid, dev) -> direct C w (ecall e) /\ fresh_base w (ecall e)) ->
  w_ident (fst (estep C w e)) = w_ident w ->
  exists U' : aterm -> Prop, (forall t, U t -> U' t) /\ taken_at U' (fst (estep C w e)) rid dev /\
    forall ty b rnd pt l s ps, e = Done (CRecv rid dev ty b rnd) -> receive C w rid dev ty b rnd = (Ok pt, l) ->
      w_sess (apply_effs w l) rid dev = Some (s, ps) ->
      exists a p q j wh m, whisper_of ty b = Some wh /\ LoadWhisperMessage wh = Ok m /\
        ~ U (a_ck a q j) /\ U' (a_ck a q j) /\ state_at (snd (w_ident w)) a p s /\ length (s_remote s) = 32%nat /\
        length (snd (w_ident w)) = 32%nat /\
        verifyMAC C m (s_remote s) (snd (w_ident w)) (ev (a_mk a q j 32 32)) = true /\
        Decrypt C (ev (a_mk a q j 0 32)) (ev (a_mk a q j 64 16) ++ wm_ct m) = Ok pt.
Proof.
  intros HW HT HSh HK HDB HI.
  assert (DEC : (exists ty b rnd pt l, e = Done (CRecv rid dev ty b rnd) /\ receive C w rid dev ty b rnd = (Ok pt, l)) \/
     (forall ty b rnd pt l, e = Done (CRecv rid dev ty b rnd) -> receive C w rid dev ty b rnd <> (Ok pt, l))).
  { destruct e as [[| rid' dev' ty b rnd|]|]; try (right; intros; discriminate).
    destruct (beq rid' rid) eqn:B; [|right; intros ? ? ? ? ? E; injection E as -> _ _ _ _; rewrite beq_refl in B; discriminate B].
    apply beq_eq in B. subst rid'. destruct (Z.eq_dec dev' dev) as [->|N]; [|right; intros ? ? ? ? ? E; injection E as -> _ _ _; congruence].
    destruct (receive C w rid dev ty b rnd) as [[pt| |] l] eqn:R; [left; eauto 9|right..];
      intros ? ? ? ? ? E; injection E as <- <- <-; rewrite R; discriminate. }
  destruct DEC as [(ty & b & rnd & pt & l & -> & HR)|NR].
  - destruct (recv_done _ _ _ _ _ _ _ _ HR) as (wh & m & r1 & r' & W1 & W2 & HO & HS & HE).
    assert (HDr : exists pt' s', ss_decrypt C (r_cur r1) m (rnd 0%nat) = (Ok pt', s')).
    { destruct (HDB eq_refl) as [HD _]. cbn [ecall direct] in HD. apply (HD pt m r1); [now rewrite HR|exact HO]. }
    destruct (recv_new U w rid dev ty b rnd m r1 pt r' HW HT HSh HK HO HS HDr)
      as (a & p & q & j & N1 & N2 & N3 & N4 & N5 & N6 & N7 & N8).
    exists (fun t => U t \/ t = a_ck a q j). split; [auto|].
    assert (EF : fst (estep C w (Done (CRecv rid dev ty b rnd))) = apply_effs w l).
    { cbn [estep perform_call]. rewrite HR. reflexivity. }
    split.
    + rewrite EF in HI |- *. unfold taken_at. rewrite HE, HI. split; [eauto|exact N8].
    + intros ty0 b0 rnd0 pt0 l0 s ps E HR0 HS0. injection E as <- <- <-. rewrite HR in HR0. injection HR0 as <- <-.
      rewrite HE in HS0. injection HS0 as <- <-. exists a, p, q, j, wh, m. auto 12.
  - assert (V : forall U' : aterm -> Prop, (forall t, U t -> U' t) -> taken_at U' (fst (estep C w e)) rid dev ->
       exists U' : aterm -> Prop, (forall t, U t -> U' t) /\ taken_at U' (fst (estep C w e)) rid dev /\
    forall ty b rnd pt l s ps, e = Done (CRecv rid dev ty b rnd) -> receive C w rid dev ty b rnd = (Ok pt, l) ->
      w_sess (apply_effs w l) rid dev = Some (s, ps) ->
      exists a p q j wh m, whisper_of ty b = Some wh /\ LoadWhisperMessage wh = Ok m /\
        ~ U (a_ck a q j) /\ U' (a_ck a q j) /\ state_at (snd (w_ident w)) a p s /\ length (s_remote s) = 32%nat /\
        length (snd (w_ident w)) = 32%nat /\
        verifyMAC C m (s_remote s) (snd (w_ident w)) (ev (a_mk a q j 32 32)) = true /\
        Decrypt C (ev (a_mk a q j 0 32)) (ev (a_mk a q j 64 16) ++ wm_ct m) = Ok pt).
    { intros U' H1 H2. exists U'. split; [exact H1|]. split; [exact H2|]. intros ty b rnd pt l s ps E HR. now apply NR in HR. }
    destruct (estep_sess C rid dev w e) as [E|(HP & s & ps & HWr & E)].
    + apply (V U); [auto|]. unfold taken_at in *. now rewrite E, HI.
    + destruct (HDB HP) as [HD HB].
      assert (GO : forall U' : aterm -> Prop, (forall t, U t -> U' t) -> (exists a p, holds U' (snd (w_ident w)) a p s) ->
         from_states U' (snd (w_ident w)) (s :: ps) -> (forall t, U t -> U' t) /\ taken_at U' (fst (estep C w e)) rid dev).
      { intros U' H1 H2 H3. split; [exact H1|]. unfold taken_at. rewrite E, HI. auto. }
      destruct HWr as [rid' dev' pt b ty s' HEn|rid' dev' ty b rnd m r1 pt r' HO HS HRc|rid' dev' b rbase rratchet spk r1 Hspk Hr1];
        cbn [peer_of] in HP; injection HP as -> ->.
      * unfold taken_at, LoadSession in *. destruct (w_sess w rid dev) as [[s0 ps0]|]; [|discriminate HEn].
        cbn [r_cur r_prevs] in *. destruct HT as [(a & p & HH) HF].
        destruct (holds_enc _ _ _ _ _ _ _ _ _ HH HEn) as (H1 & H2 & H3).
        destruct (GO U) as [G1 G2]; [auto|eauto|now apply (from_head U _ s0)|]. now apply (V U).
      * assert (HDr : exists pt' s', ss_decrypt C (r_cur r1) m (rnd 0%nat) = (Ok pt', s')).
        { apply (HD pt m r1); assumption. }
        destruct (recv_new U w rid dev ty b rnd m r1 pt r' HW HT HSh HK HO HS HDr)
          as (a & p & q & j & N1 & N2 & N3 & N4 & N5 & N6 & N7 & N8).
        destruct (GO (fun t => U t \/ t = a_ck a q j)) as [G1 G2]; [auto|eauto|exact N8|]. now apply (V (fun t => U t \/ t = a_ck a q j)).
      * cbn [own_keys] in HK. destruct HK as (K1 & K2 & K3). cbn [fresh_base] in HB. destruct HB as [B1 B2].
        assert (EP : r_prevs r1 = match w_sess w rid dev with None => [] | Some (s, ps) => s :: ps end).
        { rewrite Hr1. now apply arch_prevs. }
        assert (EC : r_cur r1 = empty_ss).
        { rewrite Hr1. unfold LoadSession. destruct (w_sess w rid dev) as [[s0 ps0]|]; reflexivity. }
        rewrite EC in *. 
        destruct (built_at w b spk rbase rratchet HW K1 K2 K3) as (a & k & c & A1 & A2 & A3 & A4 & A5).
        assert (HF : from_states U (snd (w_ident w)) (r_prevs r1)).
        { rewrite EP. unfold taken_at in HT. destruct (w_sess w rid dev) as [[s0 ps0]|]; [apply HT|]. intros t Ht. now apply HT in Ht. }
        destruct (GO U) as [G1 G2]; [auto| | |now apply (V U)].
        -- exists a, [k]. apply (new_holds U _ (r_prevs r1)); auto.
           ++ left. split; [exact A1|congruence].
           ++ cbn [with_regs s_base]. now rewrite A2.
           ++ intros x Hx _. rewrite EP in Hx. rewrite A2. destruct (w_sess w rid dev) as [[s0 ps0]|]; [|destruct Hx].
              now apply (B2 s0 ps0).
           ++ right. exists k, c. auto.
        -- eapply from_more; [|exact HF]. intros x Hx. now right.
Qed.
End I.
