(* C129 contacts are let in; C130 others are not; C131 the capabilities that are remembered are the account's; C132 profiles are
   asked for with the key of their owner; C133 access to several recipients; C134 the certificate that goes with it; C135 the
   choice not to be found by number. *)
From Coq Require Import ZArith List Lia Bool.
From Verif Require Import Bytes Res Wire Crypto Gcm Encodings PropEncodings RecordCodec RecordCodecProofs Linking PropLinking Access.
Import ListNotations.
Open Scope Z_scope.

(* ---- what the theorems speak about ---- *)

(* the server keeps the attributes of the last request it answered with success *)
Fixpoint stored (l : list (attributes * option Z)) : option attributes :=
  match l with
  | [] => None
  | (x, r) :: t =>
      match stored t with
      | Some y => Some y
      | None => match r with Some s => if (200 <=? s) && (s <? 300) then Some x else None | None => None end
      end
  end.
(* whom it lets in without asking who they are *)
Definition lets_in (x : attributes) (presented : bytes) : bool := aa_unrestricted x || beq (aa_key x) presented.
(* what a contact that knows a profile key presents *)
Definition contact_key (G : gcm) (pk : bytes) : bytes := firstn 16 (seal G pk (zeros 12) [] (zeros 16)).

(* a GCM whose cipher text begins with the tag, so that access keys depend on the keys they are derived from *)
Definition front_seal (k n a p : bytes) : bytes := toy_tag k n a p ++ p.
Definition front_open (k n a c : bytes) : option bytes :=
  let p := skipn 16 c in if beq c (front_seal k n a p) then Some p else None.
Definition frontgcm : gcm := mkGcm front_seal front_open.
Lemma frontgcm_ok : gcm_ok frontgcm.
Proof.
  constructor; cbn [frontgcm seal gopen].
  - intros. unfold front_seal, toy_tag. rewrite app_length, toy_expand_length. lia.
  - intros. apply Forall_app. split; [apply toy_expand_wf|assumption].
  - intros. unfold front_open.
    assert (E : skipn 16 (front_seal k n a p) = p).
    { unfold front_seal. apply skipn_app_exact. unfold toy_tag. apply toy_expand_length. }
    rewrite E, beq_refl. reflexivity.
  - intros k n a c p. unfold front_open. destruct (beq _ _) eqn:E; [|intros H; discriminate H].
    apply beq_eq in E. intros H. injection H as <-. exact E.
Qed.

(* ---- proofs ---- *)
Lemma key32_ok (k : bytes) : length k = 32%nat -> aes_key_ok k = true.
Proof. intros H. unfold aes_key_ok. rewrite H. reflexivity. Qed.
Lemma derive_32 G k : length k = 32%nat -> DeriveAccessKeyFrom G k = Ok (contact_key G k).
Proof. intros H. unfold DeriveAccessKeyFrom. rewrite (key32_ok k H). reflexivity. Qed.

Lemma put_result_ok p : put_result p = Ok tt <-> exists s, p = Some s /\ (200 <=? s) && (s <? 300) = true.
Proof.
  unfold put_result, bad_status. destruct p as [s|].
  - destruct (Z.ltb_spec s 200), (Z.leb_spec 300 s); cbn [orb]; split; intros H1; try discriminate H1.
    all: try (destruct H1 as (x & E & H1); injection E as <-; apply andb_true_iff in H1; destruct H1 as [H2 H3];
              apply Z.leb_le in H2; apply Z.ltb_lt in H3; lia).
    + exists s. split; [reflexivity|]. apply andb_true_iff. split; [apply Z.leb_le; lia|apply Z.ltb_lt; lia].
    + reflexivity.
  - split; [intros H; discriminate H|intros (s & E & _); discriminate E].
Qed.

Lemma stored_app a b : stored (a ++ b) = match stored b with Some y => Some y | None => stored a end.
Proof.
  induction a as [|[x r] a IH]; cbn [app stored]; [destruct (stored b); reflexivity|]. rewrite IH.
  destruct (stored b); [reflexivity|]. destruct (stored a); reflexivity.
Qed.

Section Runs.
Variable G : gcm.
Variable priv : bytes.
Hypothesis L : length priv = 32%nat.

(* one call: what is stored afterwards *)
Lemma step_stored x s s' r : acall_step G priv x s = (s', r) ->
  stored (a_sent s') = stored (a_sent s) \/
  exists y, stored (a_sent s') = Some y /\ aa_key y = contact_key G priv /\ aa_discoverable y = true /\
    match x with VerifyCode _ => aa_unrestricted y = false | SetCapabilities c _ _ => aa_unrestricted y = true /\ aa_caps y = c end.
Proof.
  intros H. destruct x as [put|c put profile]; cbn [acall_step] in H; cbv zeta in H.
  - assert (E : stored (a_sent s ++ [(verify_attributes G priv, put)]) = stored (a_sent s) \/
                stored (a_sent s ++ [(verify_attributes G priv, put)]) = Some (verify_attributes G priv)).
    { rewrite stored_app. cbn [stored]. destruct put as [z|]; [|left; reflexivity].
      destruct ((200 <=? z) && (z <? 300)); [right; reflexivity|left; reflexivity]. }
    assert (A : a_sent s' = a_sent s ++ [(verify_attributes G priv, put)]).
    { destruct (put_result put) as [u|e|]; injection H as <- _; reflexivity. }
    rewrite A. destruct E as [E|E]; rewrite E; [left; reflexivity|right]. eexists. split; [reflexivity|].
    unfold verify_attributes. cbn [aa_key aa_discoverable aa_unrestricted]. rewrite (derive_32 G priv L). split; [reflexivity|]. split; reflexivity.
  - unfold update_attributes in H. rewrite (derive_32 G priv L) in H. cbn [bind] in H.
    set (y := mkAttr (contact_key G priv) true c true) in *.
    assert (A : a_sent s' = a_sent s ++ [(y, put)]).
    { destruct (put_result put) as [u|e|]; [destruct profile as [v|e|]|..]; injection H as <- _; reflexivity. }
    rewrite A, stored_app. cbn [stored]. destruct put as [z|]; [|left; reflexivity].
    destruct ((200 <=? z) && (z <? 300)); [|left; reflexivity].
    right. exists y. split; [reflexivity|]. split; [reflexivity|]. split; [reflexivity|]. split; reflexivity.
Qed.

Lemma runs_stored l : forall s s' rs, acalls G priv l s = (s', rs) ->
  (forall y, stored (a_sent s) = Some y -> aa_key y = contact_key G priv /\ aa_discoverable y = true) ->
  forall y, stored (a_sent s') = Some y -> aa_key y = contact_key G priv /\ aa_discoverable y = true.
Proof.
  induction l as [|x l IH]; intros s s' rs H I y Y; cbn [acalls] in H.
  - injection H as <- _. exact (I y Y).
  - destruct (acall_step G priv x s) as [s1 r] eqn:E. destruct (acalls G priv l s1) as [s2 rs2] eqn:F. injection H as <- _.
    refine (IH s1 s2 rs2 F _ y Y). intros z Z. destruct (step_stored x s s1 r E) as [A|(w & A & B & C & _)].
    + rewrite A in Z. exact (I z Z).
    + rewrite A in Z. injection Z as <-. split; assumption.
Qed.

Lemma runs_restricted l : forall s s' rs, acalls G priv l s = (s', rs) ->
  (forall c put pr, ~ In (SetCapabilities c put pr) l) ->
  (forall y, stored (a_sent s) = Some y -> aa_unrestricted y = false) ->
  forall y, stored (a_sent s') = Some y -> aa_unrestricted y = false.
Proof.
  induction l as [|x l IH]; intros s s' rs H N I y Y; cbn [acalls] in H.
  - injection H as <- _. exact (I y Y).
  - destruct (acall_step G priv x s) as [s1 r] eqn:E. destruct (acalls G priv l s1) as [s2 rs2] eqn:F. injection H as <- _.
    refine (IH s1 s2 rs2 F _ _ y Y).
    { intros c put pr J. exact (N c put pr (or_intror J)). }
    intros z Z. destruct (step_stored x s s1 r E) as [A|(w & A & _ & _ & B)].
    + rewrite A in Z. exact (I z Z).
    + rewrite A in Z. injection Z as <-. destruct x as [put|c put pr]; [exact B|]. elim (N c put pr). left. reflexivity.
Qed.
End Runs.

Definition no_calls (c : caps) : astate := mkA c [].

(* C129. Over all histories, the access key of the account is derived from its identity key, never from its profile key. *)
Theorem C129_published_key : forall G priv c l s rs y, length priv = 32%nat ->
  acalls G priv l (no_calls c) = (s, rs) -> stored (a_sent s) = Some y -> aa_key y = contact_key G priv.
Proof.
  intros G priv c l s rs y L H Y.
  refine (proj1 (runs_stored G priv L l (no_calls c) s rs H _ y Y)). intros z Z. discriminate Z.
Qed.
Print Assumptions C129_published_key.
(* So a contact with the profile key is let in if and only if the account lets everyone in or the two derived keys are equal. *)
Theorem C129_when_let_in : forall G priv pk c l s rs y, length priv = 32%nat ->
  acalls G priv l (no_calls c) = (s, rs) -> stored (a_sent s) = Some y ->
  (lets_in y (contact_key G pk) = true <-> aa_unrestricted y = true \/ contact_key G priv = contact_key G pk).
Proof.
  intros G priv pk c l s rs y L H Y. unfold lets_in. rewrite (C129_published_key G priv c l s rs y L H Y), orb_true_iff, beq_eq. reflexivity.
Qed.
Print Assumptions C129_when_let_in.

Definition ex_priv : bytes := repeat 7 32.
Definition ex_pk : bytes := repeat 9 32.
Definition ex_caps : caps := mkCaps false false false false false false false false.
Theorem C129_contact_is_let_in_refuted : exists G priv pk c l s rs y, gcm_ok G /\ length priv = 32%nat /\ length pk = 32%nat /\
  acalls G priv l (no_calls c) = (s, rs) /\ Forall (eq (Ok tt)) rs /\ l <> [] /\ stored (a_sent s) = Some y /\
  lets_in y (contact_key G pk) = false.
Proof.
  exists frontgcm, ex_priv, ex_pk, ex_caps, [VerifyCode (Some 200)]. eexists. eexists. eexists.
  split; [exact frontgcm_ok|]. split; [reflexivity|]. split; [reflexivity|]. split; [cbn [acalls acall_step]; reflexivity|].
  split; [constructor; [reflexivity|constructor]|]. split; [intros X; discriminate X|]. split; [reflexivity|].
  vm_compute. reflexivity.
Qed.
Print Assumptions C129_contact_is_let_in_refuted.

(* C130. As long as only codes were verified, nobody is let in but with the one key. *)
Theorem C130_restricted_partial : forall G priv c l s rs y presented, length priv = 32%nat ->
  acalls G priv l (no_calls c) = (s, rs) -> (forall d put pr, ~ In (SetCapabilities d put pr) l) -> stored (a_sent s) = Some y ->
  lets_in y presented = true -> presented = contact_key G priv.
Proof.
  intros G priv c l s rs y presented L H N Y P. unfold lets_in in P.
  rewrite (runs_restricted G priv L l (no_calls c) s rs H N ltac:(intros z Z; discriminate Z) y Y) in P.
  rewrite (C129_published_key G priv c l s rs y L H Y) in P. cbn [orb] in P. apply beq_eq in P. symmetry. exact P.
Qed.
Print Assumptions C130_restricted_partial.
(* Whatever the history, after setting capabilities everyone is let in, with any key. *)
Theorem C130_everyone_is_let_in : forall G priv c l d st pr s rs, length priv = 32%nat -> 200 <= st < 300 ->
  acalls G priv (l ++ [SetCapabilities d (Some st) pr]) (no_calls c) = (s, rs) ->
  exists y, stored (a_sent s) = Some y /\ forall presented, lets_in y presented = true.
Proof.
  intros G priv c l d st pr s rs L St H.
  assert (Gen : forall l s0 s rs, acalls G priv (l ++ [SetCapabilities d (Some st) pr]) s0 = (s, rs) ->
                exists y, stored (a_sent s) = Some y /\ aa_unrestricted y = true).
  { clear H l s rs. induction l as [|x l IH]; intros s0 s rs H; cbn [app acalls] in H.
    - destruct (acall_step G priv (SetCapabilities d (Some st) pr) s0) as [s1 r] eqn:E. injection H as <- _.
      cbn [acall_step] in E. unfold update_attributes in E. rewrite (derive_32 G priv L) in E. cbn [bind] in E. cbv zeta in E.
      set (y := mkAttr (contact_key G priv) true d true) in *.
      assert (A : a_sent s1 = a_sent s0 ++ [(y, Some st)]).
      { destruct (put_result (Some st)) as [u|e|]; [destruct pr as [v|e|]|..]; injection E as <- _; reflexivity. }
      exists y. split; [|reflexivity]. rewrite A, stored_app. cbn [stored].
      rewrite (proj2 (Z.leb_le 200 st)), (proj2 (Z.ltb_lt st 300)) by lia. reflexivity.
    - destruct (acall_step G priv x s0) as [s1 r]. destruct (acalls G priv (l ++ _) s1) as [s2 rs2] eqn:F. injection H as <- _.
      exact (IH s1 s2 rs2 F). }
  destruct (Gen l _ _ _ H) as (y & Y & U). exists y. split; [exact Y|]. intros p. unfold lets_in. rewrite U. reflexivity.
Qed.
Print Assumptions C130_everyone_is_let_in.
Theorem C130_strangers_kept_out_refuted : exists G priv c l s rs y, gcm_ok G /\ length priv = 32%nat /\
  acalls G priv l (no_calls c) = (s, rs) /\ Forall (eq (Ok tt)) rs /\ stored (a_sent s) = Some y /\ lets_in y [] = true /\ lets_in y (zeros 16) = true.
Proof.
  exists frontgcm, ex_priv, ex_caps, [VerifyCode (Some 200); SetCapabilities ex_caps (Some 204) (Ok tt)]. eexists. eexists. eexists.
  split; [exact frontgcm_ok|]. split; [reflexivity|]. split; [vm_compute; reflexivity|].
  split; [constructor; [reflexivity|constructor; [reflexivity|constructor]]|]. split; [vm_compute; reflexivity|]. split; reflexivity.
Qed.
Print Assumptions C130_strangers_kept_out_refuted.

(* C131. If no call failed, what the configuration remembers are the capabilities that the server has. *)
Theorem C131_in_step_partial : forall G priv c l s rs y, length priv = 32%nat ->
  acalls G priv l (no_calls c) = (s, rs) -> Forall (eq (Ok tt)) rs -> stored (a_sent s) = Some y -> a_caps s = aa_caps y.
Proof.
  intros G priv c l s rs y L.
  assert (Gen : forall l s0 s rs, acalls G priv l s0 = (s, rs) -> Forall (eq (Ok tt)) rs ->
    (forall z, stored (a_sent s0) = Some z -> a_caps s0 = aa_caps z) -> forall y, stored (a_sent s) = Some y -> a_caps s = aa_caps y).
  { clear l s rs y. induction l as [|x l IH]; intros s0 s rs H F I y Y; cbn [acalls] in H.
    - injection H as <- _. exact (I y Y).
    - destruct (acall_step G priv x s0) as [s1 r] eqn:E. destruct (acalls G priv l s1) as [s2 rs2] eqn:F2. injection H as <- <-.
      inversion F as [|a b R F3]; subst. refine (IH s1 s2 rs2 F2 F3 _ y Y). intros z Z. clear IH F2 F3 Y F.
      destruct x as [put|d put pr]; cbn [acall_step] in E; cbv zeta in E.
      + destruct (put_result put) as [u|e|] eqn:P; [|discriminate E|discriminate E]. destruct u. injection E as <-.
        apply put_result_ok in P. destruct P as (st & -> & Q). cbn [a_sent] in Z. rewrite stored_app in Z. cbn [stored] in Z. rewrite Q in Z.
        injection Z as <-. reflexivity.
      + unfold update_attributes in E. rewrite (derive_32 G priv L) in E. cbn [bind] in E.
        destruct (put_result put) as [u|e|] eqn:P; [|discriminate E|discriminate E]. destruct u.
        destruct pr as [v|e|]; [|discriminate E|discriminate E]. injection E as <-.
        apply put_result_ok in P. destruct P as (st & -> & Q). cbn [a_sent] in Z. rewrite stored_app in Z. cbn [stored] in Z. rewrite Q in Z.
        injection Z as <-. reflexivity. }
  intros H F Y. refine (Gen l _ s rs H F _ y Y). intros z Z. discriminate Z.
Qed.
Print Assumptions C131_in_step_partial.
(* An error of SetAccountCapabilities does not mean that the account is as before. *)
Theorem C131_error_changes_nothing_refuted : exists G priv c l d e s1 r1 s2 r2 y1 y2, gcm_ok G /\ length priv = 32%nat /\
  acalls G priv l (no_calls c) = (s1, r1) /\ Forall (eq (Ok tt)) r1 /\
  acalls G priv (l ++ [SetCapabilities d (Some 200) (Err e)]) (no_calls c) = (s2, r1 ++ [r2]) /\ r2 = Err e /\
  stored (a_sent s1) = Some y1 /\ stored (a_sent s2) = Some y2 /\ a_caps s1 = aa_caps y1 /\ aa_caps y2 <> aa_caps y1 /\ a_caps s2 <> aa_caps y2.
Proof.
  exists frontgcm, ex_priv, ex_caps, [VerifyCode (Some 200)], ex_caps, EOther. do 6 eexists.
  split; [exact frontgcm_ok|]. split; [reflexivity|]. split; [vm_compute; reflexivity|]. split; [constructor; [reflexivity|constructor]|].
  split; [vm_compute; reflexivity|]. split; [reflexivity|]. split; [vm_compute; reflexivity|]. split; [vm_compute; reflexivity|].
  cbn [a_caps aa_caps]. split; [reflexivity|]. split; [intros X; discriminate X|intros X; discriminate X].
Qed.
Print Assumptions C131_error_changes_nothing_refuted.

(* C132. The first key presented for a profile is our own, whoever the owner is and whatever key was given; the second is what
   the server says. *)
Theorem C132_key_presented : forall G own key a, gcm_ok G -> length own = 32%nat -> wfb (match a with Some x => x | None => [] end) ->
  exists t l, GetProfile_keys G own key a = Ok (t :: l) /\ dec64 t = Ok (contact_key G own) /\
    match a with Some x => exists u, l = [u] /\ dec64 u = Ok x | None => l = [] end.
Proof.
  intros G own key a GK L W. unfold GetProfile_keys. rewrite (derive_32 G own L). cbn [bind]. eexists. eexists. split; [reflexivity|]. split.
  - apply dec64_enc64. apply wfb_firstn. apply (seal_wf G GK). apply wfb_zeros.
  - destruct a as [x|]; [|reflexivity]. eexists. split; [reflexivity|]. apply dec64_enc64. exact W.
Qed.
Print Assumptions C132_key_presented.
(* An account whose key is derived from its profile key as other clients do it: the caller has that key, but is refused. *)
Theorem C132_owner_key_presented_refuted : exists G own key y t, gcm_ok G /\ length own = 32%nat /\ length key = 32%nat /\
  lets_in y (contact_key G key) = true /\ GetProfile_keys G own key None = Ok [t] /\
  (forall k, dec64 t = Ok k -> lets_in y k = false).
Proof.
  exists frontgcm, ex_priv, ex_pk, (mkAttr (contact_key frontgcm ex_pk) false ex_caps true). eexists.
  split; [exact frontgcm_ok|]. split; [reflexivity|]. split; [reflexivity|]. split; [vm_compute; reflexivity|]. split; [reflexivity|].
  intros k H. vm_compute in H. injection H as <-. vm_compute. reflexivity.
Qed.
Print Assumptions C132_owner_key_presented_refuted.

(* C133. GetAccessFor gives one pair for each recipient, in order, or none at all. *)
Theorem C133_every_recipient : forall G own conf l ps, length own = 32%nat -> GetAccessFor G own conf l = Ok ps ->
  exists cert, GetOurCertificate conf = Ok cert /\
  Forall2 (fun r p => self p = mkAccess (contact_key G own) cert /\ ua_cert (target p) = cert /\
            match fst r with
            | Some k => aes_key_ok k = true /\ ua_key (target p) = contact_key G k
            | None => ua_key (target p) = snd r
            end) l ps.
Proof.
  intros G own conf l ps L H. unfold GetAccessFor in H. rewrite (derive_32 G own L) in H. cbn [bind] in H.
  apply bind_ok in H. destruct H as (cert & E & H). exists cert. split; [exact E|]. revert ps H.
  induction l as [|[k tok] l IH]; intros ps H; cbn [pairs_for] in H.
  - injection H as <-. constructor.
  - apply bind_ok in H. destruct H as (x & X & H). apply bind_ok in H. destruct H as (r & R & H). injection H as <-.
    constructor; [|exact (IH r R)]. cbn [self target ua_cert ua_key fst snd]. split; [reflexivity|]. split; [reflexivity|].
    unfold GetTargetUnidentifiedAccessKey in X. destruct k as [k|].
    + unfold DeriveAccessKeyFrom in X. destruct (aes_key_ok k); cbn [negb] in X; [|discriminate X]. injection X as <-. split; reflexivity.
    + injection X as ->. reflexivity.
Qed.
Print Assumptions C133_every_recipient.
Theorem C133_bad_key_is_an_error : forall G own conf l k tok, In (Some k, tok) l -> aes_key_ok k = false ->
  forall ps, GetAccessFor G own conf l <> Ok ps.
Proof.
  intros G own conf l k tok I K ps H. unfold GetAccessFor in H.
  apply bind_ok in H. destruct H as (o & _ & H). apply bind_ok in H. destruct H as (cert & _ & H).
  revert ps H. induction l as [|[k' tok'] l IH]; intros ps H; [destruct I|]. cbn [pairs_for] in H.
  apply bind_ok in H. destruct H as (x & X & H). apply bind_ok in H. destruct H as (r & R & H).
  destruct I as [I|I]; [|exact (IH I r R)]. injection I as -> ->. unfold GetTargetUnidentifiedAccessKey, DeriveAccessKeyFrom in X. rewrite K in X.
  discriminate X.
Qed.
Print Assumptions C133_bad_key_is_an_error.
(* For one recipient it is not: the pair has no key. *)
Theorem C133_usable_key_refuted : exists G own conf k tok p, gcm_ok G /\ length own = 32%nat /\ GetAccessForUUID G own conf (Some k) tok = Ok p /\
  ua_key (target p) = [] /\ forall ps, GetAccessFor G own conf [(Some k, tok)] <> Ok ps.
Proof.
  exists frontgcm, ex_priv, [], [1; 2; 3], (zeros 16). eexists. split; [exact frontgcm_ok|]. split; [reflexivity|].
  split; [vm_compute; reflexivity|]. split; [reflexivity|].
  apply (C133_bad_key_is_an_error frontgcm ex_priv [] _ [1; 2; 3] (zeros 16)); [left; reflexivity|reflexivity].
Qed.
Print Assumptions C133_usable_key_refuted.
Theorem C133_one_recipient_partial : forall G own conf k tok p, length own = 32%nat -> (forall x, k = Some x -> aes_key_ok x = true) ->
  (GetAccessForUUID G own conf k tok = Ok p <-> GetAccessFor G own conf [(k, tok)] = Ok [p]).
Proof.
  intros G own conf k tok p L K. unfold GetAccessForUUID, GetAccessFor. rewrite (derive_32 G own L). cbn [bind].
  destruct (GetOurCertificate conf) as [c|e|]; cbn [bind]; [|split; intros H; discriminate H|split; intros H; discriminate H].
  cbn [pairs_for]. unfold GetTargetUnidentifiedAccessKey. destruct k as [k|].
  - unfold DeriveAccessKeyFrom. rewrite (K k (eq_refl _)). cbn [negb bind ua_cert]. split; intros H; injection H as <-; reflexivity.
  - cbn [bind ua_cert]. split; intros H; injection H as <-; reflexivity.
Qed.
Print Assumptions C133_one_recipient_partial.

(* C134. The certificate of the server: a body and the signature of the body. *)
Definition cert_body (tel : bytes) (dev expires : Z) (idk signer uuid : bytes) : slots :=
  [(1, [WLen tel]); (2, [WVarint dev]); (3, [WI64 expires]); (4, [WLen idk]); (5, [WLen signer]); (6, [WLen uuid])].
Definition cert_slots (body sig : bytes) : slots := [(1, [WLen body]); (2, [WLen sig])].
(* what somebody does who is shown a certificate, with any way of verifying signatures *)
Definition verifies (ver : bytes -> bytes -> bool) (c : bytes) : bool :=
  match parse c with
  | Some m => match get_len 1 m, get_len 2 m with Some b, Some s => ver b s | _, _ => false end
  | None => false
  end.

Theorem C134_signature_lost : forall ver tel dev expires idk signer uuid sig,
  0 <= dev < 2 ^ 64 -> 0 <= expires < 2 ^ 64 ->
  let body := marshal (cert_body tel dev expires idk signer uuid) in
  let conf := marshal (cert_slots body sig) in
  zlen conf < 2 ^ 63 ->
  verifies ver conf = ver body sig /\
  exists c, GetOurCertificate conf = Ok c /\ c = body /\ verifies ver c = false.
Proof.
  intros ver tel dev expires idk signer uuid sig Hd He body conf S.
  assert (P : parse conf = Some (flat (cert_slots body sig))).
  { apply parse_marshal; [|exact S].
    unfold slots_ok, cert_slots. repeat (first [apply Forall_cons | apply Forall_nil | split]); cbn [fst snd val_ok]; try (unfold max_field; lia); exact Logic.I. }
  assert (G1 : get_len 1 (flat (cert_slots body sig)) = Some body) by (rewrite get_len_flat by reflexivity; reflexivity).
  assert (G2 : get_len 2 (flat (cert_slots body sig)) = Some sig) by (rewrite get_len_flat by reflexivity; reflexivity).
  split.
  - unfold verifies. rewrite P, G1, G2. reflexivity.
  - exists body. unfold GetOurCertificate. rewrite P, G1. split; [reflexivity|]. split; [reflexivity|].
    assert (Pb : parse body = Some (flat (cert_body tel dev expires idk signer uuid))).
    { apply parse_marshal.
      - unfold slots_ok, cert_body. repeat (first [apply Forall_cons | apply Forall_nil | split]); cbn [fst snd val_ok]; try (unfold max_field; lia); try exact Logic.I; lia.
      - apply (small_sub (cert_slots body sig) 1 [WLen body]); [exact S|left; reflexivity|left; reflexivity]. }
    unfold verifies. rewrite Pb.
    assert (G3 : get_len 2 (flat (cert_body tel dev expires idk signer uuid)) = None) by (rewrite get_len_flat by reflexivity; reflexivity).
    rewrite G3. destruct (get_len 1 _); reflexivity.
Qed.
Print Assumptions C134_signature_lost.
Theorem C134_certificate_verifies_refuted : exists ver G own conf k tok p, gcm_ok G /\ verifies ver conf = true /\
  GetAccessForUUID G own conf (Some k) tok = Ok p /\ verifies ver (ua_cert (target p)) = false /\ verifies ver (ua_cert (self p)) = false.
Proof.
  exists (fun b s => beq s [1]), frontgcm, ex_priv, (marshal (cert_slots (marshal (cert_body [43; 49] 1 1700000000000 [5; 6] [] [97])) [1])), ex_pk, [].
  eexists. split; [exact frontgcm_ok|]. split; [vm_compute; reflexivity|]. split; [vm_compute; reflexivity|]. split; vm_compute; reflexivity.
Qed.
Print Assumptions C134_certificate_verifies_refuted.

(* C135. Whatever is configured, the account can always be found by its number. *)
Theorem C135_always_discoverable : forall G priv c l s rs y, length priv = 32%nat ->
  acalls G priv l (no_calls c) = (s, rs) -> stored (a_sent s) = Some y -> aa_discoverable y = true.
Proof.
  intros G priv c l s rs y L H Y.
  refine (proj2 (runs_stored G priv L l (no_calls c) s rs H _ y Y)). intros z Z. discriminate Z.
Qed.
Print Assumptions C135_always_discoverable.
Theorem C135_choice_is_honoured_refuted : forall choice : bool, choice = false ->
  exists G priv c l s rs y, gcm_ok G /\ length priv = 32%nat /\ acalls G priv l (no_calls c) = (s, rs) /\ Forall (eq (Ok tt)) rs /\
    stored (a_sent s) = Some y /\ aa_discoverable y <> choice.
Proof.
  intros choice ->. exists frontgcm, ex_priv, ex_caps, [VerifyCode (Some 200); SetCapabilities ex_caps (Some 204) (Ok tt)]. do 3 eexists.
  split; [exact frontgcm_ok|]. split; [reflexivity|]. split; [vm_compute; reflexivity|].
  split; [constructor; [reflexivity|constructor; [reflexivity|constructor]]|]. split; [vm_compute; reflexivity|].
  cbn [aa_discoverable]. intros X. discriminate X.
Qed.
Print Assumptions C135_choice_is_honoured_refuted.

(* Examples *)
Example C133_example :
  match GetAccessFor frontgcm ex_priv (marshal (cert_slots [8; 1] [1])) [(Some ex_pk, []); (None, [4; 4])] with
  | Ok [p; q] => beq (ua_key (target p)) (contact_key frontgcm ex_pk) && beq (ua_key (target q)) [4; 4] && beq (ua_cert (self q)) [8; 1]
  | _ => false
  end = true.
Proof. vm_compute. reflexivity. Qed.
Example C130_example :
  match acalls frontgcm ex_priv [VerifyCode None; VerifyCode (Some 200); VerifyCode (Some 423)] (no_calls ex_caps) with
  | (s, [Err _; Ok _; Err _]) => match stored (a_sent s) with Some y => lets_in y (contact_key frontgcm ex_priv) && negb (lets_in y (zeros 16)) | None => false end
  | _ => false
  end = true.
Proof. vm_compute. reflexivity. Qed.
