(* The content of an attachment is what its reader gives: property C192. *)
From Coq Require Import String Ascii ZArith List Lia Bool.
From Verif Require Import Bytes Res Crypto Cbc Content Encodings Sending Receiving Attachments PropAttachments Examples Readers PropProtocol.
Import ListNotations.
Open Scope Z_scope.

(* ------------------------------------------------------------------------------------------ *)
(* A reader gives the content c and ends with e: however large the buffers are with which it is read, and
   in whatever portions it answers, the portions are those of c, and e comes with or after the last of
   them, and again when asked again. *)
Definition ended {St} (read : St -> nat -> bytes * option rerr * St) (s : St) (e : rerr) : Prop :=
  forall n, read s n = ([], Some e, s).
Inductive gives {St} (read : St -> nat -> bytes * option rerr * St) (e : rerr) : St -> bytes -> Prop :=
| gives_intro s c :
    (forall n d s', (0 < n)%nat -> read s n = (d, None, s') -> (length d <= n)%nat /\ firstn (length d) c = d) ->
    (forall n d s', (0 < n)%nat -> read s n = (d, None, s') -> gives read e s' (skipn (length d) c)) ->
    (forall n d x s', (0 < n)%nat -> read s n = (d, Some x, s') -> (length d <= n)%nat /\ d = c /\ x = e /\ ended read s' e) ->
    gives read e s c.

Lemma skipn_add {A} a b (l : list A) : skipn (a + b) l = skipn b (skipn a l).
Proof. revert l. induction a as [|a IH]; intros [|x l]; try reflexivity; [now destruct b|apply IH]. Qed.

Section Proofs.
Variable St : Type.
Variable read : St -> nat -> bytes * option rerr * St.
Notation gives := (gives read).
Notation ended := (ended read).
Notation copyN := (copyN St read).
Notation readAll := (readAll St read).

Lemma ended_gives s e : ended s e -> gives e s [].
Proof.
  intros H. constructor.
  - intros n d s' _ E. rewrite H in E. discriminate E.
  - intros n d s' _ E. rewrite H in E. discriminate E.
  - intros n d x s' Hn E. rewrite H in E. injection E as <- <- <-. cbn [length]. split; [lia|]. auto.
Qed.

(* after reading up to lim bytes, the rest is still to come *)
Lemma copy_gives lim s b s' : copyN lim s b s' -> forall c e, gives e s c ->
  b = firstn lim c /\ gives e s' (skipn (length b) c).
Proof.
  intros H. induction H as [s|lim s n d s1 b s2 Hn R HC IH|lim s n d x s1 Hn R]; intros c e HG.
  - split; [reflexivity|]. exact HG.
  - destruct HG as [s c G1 G2 G3]. destruct (G1 _ _ _ (proj1 Hn) R) as [L E]. specialize (G2 _ _ _ (proj1 Hn) R).
    destruct (IH _ _ G2) as [E1 E2]. split.
    + rewrite E1. rewrite <- E at 1. rewrite <- (firstn_skipn (length d) (firstn lim c)). rewrite firstn_firstn.
      rewrite Nat.min_l by lia. f_equal. now rewrite skipn_firstn_comm.
    + rewrite app_length. replace (skipn (length d + length b) c) with (skipn (length b) (skipn (length d) c)); [exact E2|].
      symmetry. apply skipn_add.
  - destruct HG as [s c G1 G2 G3]. destruct (G3 _ _ _ _ (proj1 Hn) R) as (L & -> & -> & HE). split.
    + rewrite firstn_all2; [reflexivity|lia].
    + rewrite skipn_all. now apply ended_gives.
Qed.
Lemma copy_exists lim : forall e s c, gives e s c -> exists b s', copyN lim s b s'.
Proof.
  intros e s c HG. revert lim. induction HG as [s c G1 G2 IH G3]. intros lim.
  destruct lim as [|lim]; [exists [], s; constructor|].
  destruct (read s (S lim)) as [[d [x|]] s1] eqn:R.
  - exists d, s1. apply (copy_stop _ _ _ _ (S lim) _ x); [lia|exact R].
  - destruct (IH (S lim) d s1 ltac:(lia) R (S lim - length d)%nat) as (b & s2 & HC).
    exists (d ++ b), s2. apply (copy_more _ _ _ _ (S lim) _ s1); [lia|exact R|exact HC].
Qed.
Definition result (e : rerr) : option Z := match e with Eof => None | Failed c => Some c end.
Lemma all_gives m b r : readAll m b r -> forall c e, gives e (snd m) c -> b = fst m ++ c /\ r = result e.
Proof.
  intros H. induction H as [m n d m1 b r Hn M HA IH|m n d m1 Hn M|m n d x m1 Hn M]; intros c e HG;
    destruct m as [buf s]; unfold multi in M; cbn [fst snd] in *; destruct buf as [|y t].
  - destruct (read s n) as [[d0 r0] s1] eqn:R. injection M as <- -> <-. destruct HG as [s c G1 G2 G3].
    destruct (G1 _ _ _ Hn R) as [L E]. destruct (IH _ _ (G2 _ _ _ Hn R)) as [-> ->]. cbn [app fst]. split; [|reflexivity].
    rewrite <- E at 1. apply firstn_skipn.
  - injection M as <- <-. destruct (IH _ _ HG) as [-> ->]. cbn [fst]. split; [|reflexivity]. rewrite app_assoc.
    now rewrite firstn_skipn.
  - destruct (read s n) as [[d0 r0] s1] eqn:R. injection M as <- -> <-. destruct HG as [s c G1 G2 G3].
    destruct (G3 _ _ _ _ Hn R) as (L & -> & <- & HE). split; reflexivity.
  - discriminate M.
  - destruct (read s n) as [[d0 r0] s1] eqn:R. injection M as <- -> <-. destruct HG as [s c G1 G2 G3].
    destruct (G3 _ _ _ _ Hn R) as (L & -> & <- & HE). split; reflexivity.
  - discriminate M.
Qed.
Lemma all_exists e s c : gives e s c -> forall buf, exists b r, readAll (buf, s) b r.
Proof.
  intros HG. assert (E0 : exists b r, readAll ([], s) b r).
  { induction HG as [s c G1 G2 IH G3]. destruct (read s 512) as [[d [x|]] s1] eqn:R.
    - destruct x as [|z].
      + exists d, None. apply (all_end _ _ _ 512%nat d ([], s1)); [lia|]. unfold multi. cbn [fst snd]. now rewrite R.
      + exists d, (Some z). apply (all_fail _ _ _ 512%nat d z ([], s1)); [lia|]. unfold multi. cbn [fst snd]. now rewrite R.
    - destruct (IH 512%nat d s1 ltac:(lia) R) as (b & r & HA). exists (d ++ b), r.
      apply (all_more _ _ _ 512%nat d ([], s1)); [lia| |exact HA]. unfold multi. cbn [fst snd]. now rewrite R. }
  intros [|y t]; [exact E0|]. destruct E0 as (b & r & HA). exists ((y :: t) ++ b), r.
  apply (all_more _ _ _ (length (y :: t)) (y :: t) ([], s)); [cbn; lia| |exact HA]. unfold multi. cbn [fst snd].
  now rewrite firstn_all, skipn_all.
Qed.
End Proofs.

(* ------------------------------------------------------------------------------------------ *)
(* C192. The attachment that is uploaded is the whole content of the reader, and its type is that of the first
   1024 bytes, in whatever portions the reader gives it; and the reading comes to an end. *)
Theorem C192_whole : forall St (read : St -> nat -> bytes * option rerr * St) C sha256 sniff sv keys iv voice s c,
  gives read Eof s c ->
  (exists o, uploads St read C sha256 sniff sv keys iv voice s o) /\
  forall o, uploads St read C sha256 sniff sv keys iv voice s o ->
  o = uploadAttachmentV3 C sha256 sv keys iv c (if voice then text "audio/mpeg" else sniff (firstn 1024 c)) voice.
Proof.
  intros St read C sha sniff sv keys iv voice s c HG. split.
  - destruct (copy_exists St read 1024 _ _ _ HG) as (buf & s1 & HC). destruct (copy_gives St read _ _ _ _ HC _ _ HG) as [_ HG1].
    destruct (all_exists St read _ _ _ HG1 buf) as (b & r & HA). eexists. exists buf, s1, b, r. split; [exact HC|]. split; [exact HA|reflexivity].
  - intros o (buf & s1 & b & r & HC & HA & ->). destruct (copy_gives St read _ _ _ _ HC _ _ HG) as [EB HG1].
    destruct (all_gives St read _ _ _ HA _ _ HG1) as [Eb ->]. cbn [result fst] in *.
    assert (E : b = c). { rewrite Eb. transitivity (firstn (length buf) c ++ skipn (length buf) c); [|apply firstn_skipn]. f_equal. rewrite EB at 1.
      rewrite EB, firstn_length. destruct (Nat.min_spec 1024 (length c)) as [[_ ->]|[L ->]]; [reflexivity|]. now rewrite firstn_all2, firstn_all by lia. }
    rewrite E, EB. destruct voice; reflexivity.
Qed.
Print Assumptions C192_whole.

(* So it arrives: what the recipient of the message gets from the pointer is the content of the reader. *)
Theorem C192_arrives : forall St (read : St -> nat -> bytes * option rerr * St) C, crypto_ok C ->
  forall sha256 sniff sv keys iv voice s c p loc m,
  gives read Eof s c -> length keys = 64%nat -> length iv = 16%nat -> wfb iv -> wfb c ->
  uploads St read C sha256 sniff sv keys iv voice s (Ok (p, (loc, m))) ->
  forall pk now o, o_att o = Some p -> forall a, d_atts (createMessage pk now o) = [a] ->
  (forall ou, ou_fetch ou a = Ok m -> handleAttachments C ou [a] = Ok [c]) /\
  ap_type a = Some (if voice then text "audio/mpeg" else sniff (firstn 1024 c)).
Proof.
  intros St read C OK sha sniff sv keys iv voice s c p loc m HG Hk Hi Hw Hc HU pk now o Ho a Ha.
  apply (C192_whole _ _ _ _ _ _ _ _ _ _ _ HG) in HU. symmetry in HU.
  destruct (C55_round_trip C OK _ _ _ _ _ _ _ _ _ _ Hk Hi Hw Hc HU pk now o Ho) as (a' & A1 & A2 & A3 & _).
  rewrite Ha in A1. injection A1 as <-. rewrite Ha in A2. split; assumption.
Qed.
Print Assumptions C192_arrives.

(* A reader that fails, at whatever byte: nothing is uploaded and the call fails. *)
Theorem C192_failing_reader : forall St (read : St -> nat -> bytes * option rerr * St) C sha256 sniff sv keys iv voice s c x o,
  gives read (Failed x) s c -> uploads St read C sha256 sniff sv keys iv voice s o -> o = Err EOther.
Proof.
  intros St read C sha sniff sv keys iv voice s c x o HG (buf & s1 & b & r & HC & HA & ->).
  destruct (copy_gives St read _ _ _ _ HC _ _ HG) as [_ HG1]. destruct (all_gives St read _ _ _ HA _ _ HG1) as [_ ->]. reflexivity.
Qed.
Print Assumptions C192_failing_reader.

(* ------------------------------------------------------------------------------------------ *)
(* Readers by script: the portions that are left, then the end; a portion larger than the buffer is given in
   parts; with `late` the end comes after the last portion and not with it. *)
Definition script := list bytes.
Definition read_script (late : bool) (e : rerr) (s : script) (n : nat) : bytes * option rerr * script :=
  match s with
  | [] => ([], Some e, [])
  | d :: r => if (length d <=? n)%nat
              then match r with [] => if late then (d, None, []) else (d, Some e, []) | _ => (d, None, r) end
              else (firstn n d, None, skipn n d :: r)
  end.
Lemma read_script_gives late e : forall k s, (length (concat s) + length s <= k)%nat -> gives (read_script late e) e s (concat s).
Proof.
  induction k as [|k IH]; intros s L.
  - destruct s as [|d r]; [|cbn [length] in L; lia]. apply ended_gives. intros n. reflexivity.
  - destruct s as [|d r]; [apply ended_gives; intros n; reflexivity|]. cbn [concat length] in L. rewrite app_length in L.
    assert (E : forall n, (length d <=? n)%nat = true -> firstn (length d) (concat (d :: r)) = d /\ skipn (length d) (concat (d :: r)) = concat r).
    { intros n _. cbn [concat]. rewrite firstn_app, skipn_app, Nat.sub_diag, firstn_all, skipn_all, firstn_O, app_nil_r. split; reflexivity. }
    constructor.
    + intros n x s' Hn R. cbn [read_script] in R. destruct (length d <=? n)%nat eqn:B.
      * destruct (E n B) as [E1 E2]. destruct r as [|d' r]; [destruct late; [|discriminate R]|]; injection R as <- <-; (split; [now apply Nat.leb_le|exact E1]).
      * injection R as <- <-. apply Nat.leb_gt in B. rewrite firstn_length, Nat.min_l by lia. split; [lia|]. cbn [concat].
        rewrite firstn_app. replace (n - length d)%nat with 0%nat by lia. now rewrite firstn_O, app_nil_r.
    + intros n x s' Hn R. cbn [read_script] in R. destruct (length d <=? n)%nat eqn:B.
      * destruct (E n B) as [E1 E2]. destruct r as [|d' r].
        -- destruct late; [|discriminate R]. injection R as <- <-. rewrite E2. apply IH. cbn. lia.
        -- injection R as <- <-. rewrite E2. apply IH. cbn [length] in *. lia.
      * injection R as <- <-. apply Nat.leb_gt in B. rewrite firstn_length, Nat.min_l by lia. cbn [concat].
        rewrite skipn_app. replace (n - length d)%nat with 0%nat by lia. change (skipn 0 (concat r)) with (concat r).
        change (skipn n d ++ concat r) with (concat (skipn n d :: r)). apply IH. cbn [concat length]. rewrite app_length, skipn_length. lia.
    + intros n x e' s' Hn R. cbn [read_script] in R. destruct (length d <=? n)%nat eqn:B; [|discriminate R].
      destruct r as [|d' r]; [|discriminate R]. destruct late; [discriminate R|]. injection R as <- <- <-.
      split; [now apply Nat.leb_le|]. split; [cbn; now rewrite app_nil_r|]. split; [reflexivity|]. intros n'. reflexivity.
Qed.
(* a picture in portions of one, three and sixteen bytes, and 2000 more *)
Definition ex_portions : script := [firstn 1 ex_pic; firstn 3 (skipn 1 ex_pic); skipn 4 ex_pic; repeat 7 2000].
Example C192_example : gives (read_script true Eof) Eof ex_portions (ex_pic ++ repeat 7 2000) /\
  gives (read_script false (Failed 5)) (Failed 5) ex_portions (ex_pic ++ repeat 7 2000) /\
  exists o, uploads _ (read_script true Eof) toy (toy_hmac []) (fun b => firstn 2 b) ex_sv ex_keys ex_iv false ex_portions (Ok o).
Proof.
  assert (E : concat ex_portions = ex_pic ++ repeat 7 2000) by reflexivity.
  assert (G : forall late e, gives (read_script late e) e ex_portions (ex_pic ++ repeat 7 2000)).
  { intros late e. rewrite <- E. now apply (read_script_gives late e (length (concat ex_portions) + length ex_portions)). }
  split; [apply G|]. split; [apply G|]. destruct (C192_whole _ _ toy (toy_hmac []) (fun b => firstn 2 b) ex_sv ex_keys ex_iv false _ _ (G true Eof)) as [[o HO] HU].
  pose proof (HU o HO) as EO.
  destruct (C55_upload_succeeds toy (toy_hmac []) ex_sv ex_keys ex_iv (ex_pic ++ repeat 7 2000) (firstn 2 (firstn 1024 (ex_pic ++ repeat 7 2000))) false ex_form
    [104;116;116;112;115;58;47;47;97;47;99;47;100]) as (p & loc & m & HP); try reflexivity; try (cbn; lia).
  exists (p, (loc, m)). rewrite EO in HO. cbv iota in HO. rewrite HP in HO. exact HO.
Qed.

(* A reader need not fail again when it is read again. If the failure falls within the first 1024 bytes it is lost
   there (textsecure.go 147), and what was cut off is sent as if it were all. *)
Definition read_once (fail : option Z) (s : option bytes * bool) (n : nat) : bytes * option rerr * (option bytes * bool) :=
  match s with
  | (Some d, f) => (firstn n d, None, (match skipn n d with [] => None | r => Some r end, f))
  | (None, true) => ([], match fail with Some x => Some (Failed x) | None => Some Eof end, (None, false))
  | (None, false) => ([], Some Eof, (None, false))
  end.
Theorem C192_failure_lost_refuted : exists St (read : St -> nat -> bytes * option rerr * St) C sha256 sniff sv keys iv s d x s1 s2 o,
  crypto_ok C /\ (* the reader gives d and then fails *)
  read s 1024%nat = (d, None, s1) /\ read s1 (1024 - length d)%nat = ([], Some (Failed x), s2) /\
  uploads St read C sha256 sniff sv keys iv false s (Ok o).
Proof.
  set (rd := read_once (Some 5)). set (s := (Some ex_pic, true)).
  destruct (C55_upload_succeeds toy (toy_hmac []) ex_sv ex_keys ex_iv ex_pic (firstn 2 ex_pic) false ex_form
    [104;116;116;112;115;58;47;47;97;47;99;47;100]) as (p & loc & m & HP); try reflexivity; try (cbn; lia).
  exists (option bytes * bool)%type, rd, toy, (toy_hmac []), (fun b => firstn 2 b), ex_sv, ex_keys, ex_iv, s, ex_pic, 5, (None, true), (None, false), (p, (loc, m)).
  split; [exact toy_ok|]. split; [reflexivity|]. split; [reflexivity|].
  exists ex_pic, (None, false), ex_pic, None. split; [|split].
  - change (copyN _ rd 1024 s (ex_pic ++ []) (None, false)). apply (copy_more _ _ _ _ 1024%nat _ (None, true)); [lia|reflexivity|].
    apply (copy_stop _ _ _ _ 1%nat _ (Failed 5)); [cbn; lia|reflexivity].
  - change (readAll _ rd (ex_pic, (None, false)) (ex_pic ++ []) None). apply (all_more _ _ _ 512%nat ex_pic ([], (None, false))); [lia|reflexivity|].
    apply (all_end _ _ _ 512%nat [] ([], (None, false))); [lia|reflexivity].
  - cbv iota. symmetry. exact HP.
Qed.
Print Assumptions C192_failure_lost_refuted.
