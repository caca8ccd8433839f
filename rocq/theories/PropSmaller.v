(* C49, which half comes first; C82, numbers with an extension *)
From Coq Require Import String Ascii ZArith List Lia Bool.
From Verif Require Import Bytes Res Crypto Messages Decimal Fingerprint PropFingerprint Regex Contacts PropDiscovery PropProtocol.
Import ListNotations.
Open Scope Z_scope.
Local Notation text := PropProtocol.text.

(* the number that digits write *)
Definition number (d : bytes) : Z := fold_left (fun a c => a * 10 + (c - 48)) d 0.

Lemma blt_app x : forall y u v, length x = length y -> blt (x ++ u) (y ++ v) = if beq x y then blt u v else blt x y.
Proof.
  induction x as [|c x IH]; intros [|d y] u v L; try discriminate; [reflexivity|]. cbn [app blt beq].
  destruct (Z.ltb_spec c d); destruct (Z.eqb_spec c d); cbn [andb]; try lia; auto.
Qed.
Lemma compare_blt a : forall b r, length a = length b -> lens5 a -> lens5 b -> compareFingerprintBlocks a b = Ok r ->
  r <> 0 /\ (r < 0 <-> blt (concat a) (concat b) = true).
Proof.
  induction a as [|x a IH]; intros [|y b] r L La Lb; try discriminate. cbn [compareFingerprintBlocks]. rewrite L, Nat.eqb_refl.
  inversion La; inversion Lb; subst. cbn [concat]. rewrite blt_app by congruence. unfold scompare. destruct (beq x y).
  - intros E. apply IH; auto.
  - destruct (blt x y); intros E; injection E as <-; split; try lia; split; intros; try lia; discriminate.
Qed.
Lemma number_order a b : length a = length b -> Forall (fun c => 48 <= c <= 57) a -> Forall (fun c => 48 <= c <= 57) b ->
  (blt a b = true <-> number a < number b).
Proof.
  intros L A B.
  assert (D : forall l, Forall (fun c => 48 <= c <= 57) l -> Forall (fun c => is_digit c = true) l).
  { intros l. apply Forall_impl. intros c H. unfold is_digit. lia. }
  destruct (blt_digits a b L (D _ A) (D _ B) 0 0 ltac:(lia) ltac:(lia)) as (va & vb & E1 & E2 & _ & E3).
  rewrite fold_undec in E1, E2 by (apply D; assumption). injection E1 as <-. injection E2 as <-. apply E3. reflexivity.
Qed.
Lemma half_digits h bl : half_blocks h bl -> lens5 bl /\ length (concat bl) = 30%nat /\ Forall (fun c => 48 <= c <= 57) (concat bl).
Proof.
  intros (L & H). assert (F : Forall (fun d => length d = 5%nat /\ Forall (fun c => 48 <= c <= 57) d) bl).
  { apply Forall_forall. intros d Hd. apply (In_nth _ _ (@nil Z : bytes)) in Hd as (i & Hi & <-). destruct (H i ltac:(lia)) as (? & ? & _). auto. }
  split; [unfold lens5; eapply Forall_impl; [|exact F]; intros d [X _]; exact X|]. split.
  - do 7 (destruct bl as [|? bl]; cbn [length] in L; try lia).
    repeat match goal with H : Forall _ (_ :: _) |- _ => inversion H as [|? ? [? _] ?]; clear H; subst end. cbn [concat]. rewrite !app_length. cbn [length]. lia.
  - clear L H. induction F as [|d l [_ D] F IH]; [constructor|]. cbn [concat]. apply Forall_app. auto.
Qed.

(* C49. Of the two halves the one that is smaller as a number of thirty digits is shown first. *)
Theorem C49_smaller_first : forall H v lid lb (lk : bytes) rid rb (rk : bytes) nums qr,
  hash64 H -> 0 <= v < 2 ^ 32 -> length lk = 32%nat -> length rk = 32%nat ->
  CreateFingerprintSimple H v lid (lb :: lk) rid (rb :: rk) = Ok (nums, qr) ->
  exists a b, nums = a ++ b /\ number (concat a) < number (concat b) /\
    (half_blocks (spec_half H lid lk) a /\ half_blocks (spec_half H rid rk) b \/
     half_blocks (spec_half H rid rk) a /\ half_blocks (spec_half H lid lk) b).
Proof.
  intros H v lid lb lk rid rb rk nums qr HH Hv Ll Lr. rewrite simple_ok by assumption. unfold CreateFingerprint.
  destruct (fp_hash H lid [lk] HH) as (Fl & Wl). destruct (fp_hash H rid [rk] HH) as (Fr & Wr).
  rewrite <- (fp_half H lid lk), <- (fp_half H rid rk).
  set (l := getFingerprint H ITERATIONS lid [lk]) in *. set (r := getFingerprint H ITERATIONS rid [rk]) in *. clearbody l r.
  unfold CreateFingerprintNumbers. rewrite !numbers_ok by (auto; lia). cbn [bind].
  pose proof (blocks_half l) as Bl. pose proof (blocks_half r) as Br.
  destruct (half_digits _ _ Bl) as (A1 & A2 & A3). destruct (half_digits _ _ Br) as (B1 & B2 & B3).
  assert (LL : length (blocks_of l) = length (blocks_of r)) by reflexivity.
  destruct (compareFingerprintBlocks (blocks_of l) (blocks_of r)) as [c| |] eqn:E; cbn [bind]; try discriminate.
  destruct (compare_blt _ _ _ LL A1 B1 E) as (N & O). rewrite number_order in O by (auto; congruence).
  destruct (CreateQRFingerprint v l r); cbn [bind]; try discriminate. intros X. injection X as <- _.
  destruct (Z.leb_spec c 0).
  - exists (blocks_of l), (blocks_of r). split; [reflexivity|]. split; [apply O; lia|]. left. auto.
  - exists (blocks_of r), (blocks_of l). split; [reflexivity|]. split; [|right; auto].
    destruct (Z.lt_total (number (concat (blocks_of r))) (number (concat (blocks_of l)))) as [G|[G|G]]; [exact G| |apply O in G; lia].
    exfalso.
    assert (NE : blocks_of l <> blocks_of r) by (intros Q; rewrite Q, compare_same in E; discriminate).
    destruct (compare_opp (blocks_of l) (blocks_of r) LL A1 B1 NE) as (c' & _ & E1 & E2).
    rewrite E in E1. injection E1 as <-. destruct (compare_blt _ _ _ (eq_sym LL) B1 A1 E2) as (_ & O2).
    rewrite number_order in O2 by (auto; congruence). assert (- c < 0) by lia. apply O2 in H1. lia.
Qed.
Print Assumptions C49_smaller_first.

(* Example: the half of the one side begins with a smaller block. *)
Example C49_first_example : exists a b qr, ex_number = Ok (a ++ b, qr) /\ length a = 6%nat /\ number (concat a) < number (concat b).
Proof.
  unfold ex_number. match goal with |- exists a b qr, Ok (?n, ?q) = _ /\ _ => exists (firstn 6 n), (skipn 6 n), q end.
  split; [vm_compute; reflexivity|]. split; [vm_compute; reflexivity|]. vm_compute. reflexivity.
Qed.

(* ---------- C82 ---------- *)
Lemma lang_text t : lang (Contacts.text t) t.
Proof. induction t as [|c t IH]; cbn [Contacts.text]; [constructor|]. change (c :: t) with ([c] ++ t). constructor; [constructor; cbn [in_cls existsb fst snd]; lia|exact IH]. Qed.
Lemma lang_digits t : t <> [] -> Forall (fun c => 48 <= c <= 57) t -> lang (plus digit) t.
Proof.
  intros NE D. destruct t as [|d t]; [now elim NE|]. unfold plus. change (d :: t) with ([d] ++ t). apply Forall_cons_iff in D. destruct D as [Hd D].
  constructor; [constructor; cbn [in_cls existsb fst snd]; lia|now apply star_digits].
Qed.
Lemma undec_stop a : forall x c t, Forall (fun c => 48 <= c <= 57) a -> is_digit c = false -> undec x (a ++ c :: t) = None.
Proof.
  induction a as [|d a IH]; intros x c t D N; cbn [app undec]; [now rewrite N|]. inversion D; subst.
  destruct (is_digit d); [apply IH; assumption|reflexivity].
Qed.
Lemma lang_ext s1 w s2 e : lang r_sep s1 -> lang (Alt (byte 35) (Alt (Cat (Contacts.text [101; 120; 116]) (ropt (byte 46)))
    (Alt (Contacts.text [101; 120; 116; 101; 110; 115; 105; 111; 110]) (byte 120)))) w -> lang r_sep s2 -> lang (plus digit) e ->
  lang r_ext (s1 ++ w ++ s2 ++ e).
Proof. intros A B D E. unfold r_ext. constructor; [exact A|]. constructor; [exact B|]. constructor; assumption. Qed.
Lemma sep_none : lang r_sep []. Proof. apply LAltR. constructor. Qed.
Lemma sep_space : lang r_sep [32]. Proof. apply LAltL. constructor. reflexivity. Qed.
Lemma asked_or_seen local c : In c local -> p_tel c <> [] -> rmatch phone_re (p_tel c) = true ->
  forall seen, In (p_tel c) (tokens_of seen local) \/ In (p_tel c) seen.
Proof.
  intros HI NE M. induction local as [|x local IH]; [destruct HI|]. intros seen. cbn [tokens_of]. destruct HI as [->|HI].
  - rewrite M. destruct (beq (p_tel c) []) eqn:E; [apply beq_eq in E; contradiction|]. cbn [negb andb].
    destruct (memb (p_tel c) seen) eqn:S0; cbn [negb]; [right; now apply memb_in|left; now left].
  - destruct (_ && _ && _); [|apply IH; exact HI]. destruct (IH HI (p_tel x :: seen)) as [A|[A|A]]; [left; now right|left; now left|now right].
Qed.
(* C82. One contact whose number is written with an extension, in any of these ways, and the whole address book is not
   looked up. *)
Definition extension_words : list bytes := [text " extension "; text " ext. "; text " ext "; text " x "; text "#"].
Theorem C82_extension : forall local c w d e nonce, In c local -> p_tel c = d ++ w ++ e -> In w extension_words ->
  d <> [] -> e <> [] -> Forall (fun c => 48 <= c <= 57) d -> Forall (fun c => 48 <= c <= 57) e ->
  buildQueryDataWithNonce (tokens_of [] local) nonce = Err EBadFormat.
Proof.
  intros local c w d e nonce HI T W ND NE DD DE.
  assert (LX : lang r_ext (w ++ e)).
  { pose proof (lang_digits e NE DE) as LE. unfold extension_words in W. cbn [In] in W.
    destruct W as [<-|[<-|[<-|[<-|[<-|[]]]]]].
    - apply (lang_ext [32] (text "extension") [32] e sep_space); [|exact sep_space|exact LE]. apply LAltR, LAltR, LAltL. apply (lang_text (text "extension")).
    - apply (lang_ext [32] (text "ext.") [32] e sep_space); [|exact sep_space|exact LE]. apply LAltR, LAltL.
      apply (LCat _ _ (text "ext") [46]); [apply (lang_text (text "ext"))|]. apply LAltL. constructor. reflexivity.
    - apply (lang_ext [32] (text "ext") [32] e sep_space); [|exact sep_space|exact LE]. apply LAltR, LAltL.
      apply (LCat _ _ (text "ext") []); [apply (lang_text (text "ext"))|]. apply LAltR. constructor.
    - apply (lang_ext [32] (text "x") [32] e sep_space); [|exact sep_space|exact LE]. apply LAltR, LAltR, LAltR. constructor. reflexivity.
    - apply (lang_ext [] (text "#") [] e sep_none); [|exact sep_none|exact LE]. apply LAltL. constructor. reflexivity. }
  assert (LP : lang phone_re (p_tel c)).
  { rewrite T. change (d ++ w ++ e) with ([] ++ d ++ w ++ e). unfold phone_re. constructor; [apply LAltR; constructor|].
    constructor; [|apply LAltL; exact LX]. rewrite <- (app_nil_r d). apply LStarS; [|constructor]. unfold r_group.
    replace d with ([] ++ (d ++ [])) by (cbn [app]; apply app_nil_r). constructor; [apply LAltR; constructor|].
    constructor; [apply lang_digits; assumption|]. apply (LCat r_close r_sep [] []); apply LAltR; constructor. }
  apply rmatch_ok in LP. assert (NT : p_tel c <> []) by (rewrite T; destruct d; [now elim ND|discriminate]).
  destruct (asked_or_seen local c HI NT LP []) as [A|[]].
  assert (NA : atoi (p_tel c) = None).
  { rewrite T. assert (exists x t, w = x :: t /\ is_digit x = false) as (x & t & -> & NX).
    { unfold extension_words in W. cbn [In] in W. destruct W as [<-|[<-|[<-|[<-|[<-|[]]]]]]; eexists _, _; split; reflexivity. }
    destruct d as [|y d]; [now elim ND|]. inversion DD as [|? ? HY DT]; subst.
    cbn [app]. unfold atoi. pose proof (undec_stop (y :: d) 0 x (t ++ e) DD NX) as U. cbn [app] in U.
    rewrite U. assert (y = 48 \/ y = 49 \/ y = 50 \/ y = 51 \/ y = 52 \/ y = 53 \/ y = 54 \/ y = 55 \/ y = 56 \/ y = 57) as Y by lia.
    repeat (destruct Y as [->|Y]; [reflexivity|]). now subst. }
  unfold buildQueryDataWithNonce. clear - A NA. induction (tokens_of [] local) as [|a l IH]; [destruct A|]. cbn [addressData]. destruct A as [->|A].
  - rewrite NA. reflexivity.
  - destruct (atoi a); [|reflexivity]. specialize (IH A). destruct (addressData l); cbn [bind] in *; [discriminate|exact IH|discriminate].
Qed.
Print Assumptions C82_extension.

(* Example: "030123 extension 5" after an ordinary number *)
Example C82_extension_example : exists local c, In c local /\ p_tel c = text "030123" ++ text " extension " ++ text "5" /\
  tokens_of [] local = [text "+4930"; text "030123 extension 5"].
Proof.
  exists [ex_person (text "+4930") [65]; ex_person (text "030123 extension 5") [66]], (ex_person (text "030123 extension 5") [66]).
  split; [right; now left|]. split; [reflexivity|]. vm_compute. reflexivity.
Qed.
