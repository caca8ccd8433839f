(* C230: attachments that cannot be fetched *)
From Coq Require Import ZArith List Lia Bool.
From Verif Require Import Bytes Res Wire WireProofs Crypto Cbc Messages Session Builder Conversation RecordCodec RecordCodecProofs Content
  ContentProofs Encodings PropEncodings Sending Examples PropSending Receiving PropReceiving PropUnread Attachments PropAttachments Fetch.
Import ListNotations.
Open Scope Z_scope.

(* an attachment by key, or by number *)
Definition by_key (k : bytes) (key : option bytes) (cdn : option Z) : attptr := mkAtt (Some (inr k)) None key None None None None cdn.
(* hexadecimal digits *)
Definition hex_digit (c : Z) : Prop := 48 <= c <= 57 \/ 65 <= c <= 70 \/ 97 <= c <= 102.
(* characters that stand for themselves in an address *)
Definition usual (c : Z) : Prop := 32 <= c /\ c <> 127 /\ c <> 35 /\ c <> 37.

(* keys written in the way of addresses: characters that stand for themselves, and escapes *)
Inductive written : bytes -> Prop :=
| W_nil : written []
| W_char c k : usual c -> written k -> written (c :: k)
| W_esc h1 h2 k : hex_digit h1 -> hex_digit h2 -> written k -> written (37 :: h1 :: h2 :: k).
Lemma ishex_ok c : ishex c = true <-> hex_digit c.
Proof. unfold ishex, hex_digit. rewrite !orb_true_iff, !andb_true_iff, !Z.leb_le. lia. Qed.

Lemma upto_app c a b : Forall (fun x => x <> c) a -> upto c (a ++ b) = a ++ upto c b.
Proof. induction 1 as [|x a X _ IH]; [reflexivity|]. cbn [app upto]. rewrite (proj2 (Z.eqb_neq _ _) X), IH. reflexivity. Qed.
Lemma after_app c a b : Forall (fun x => x <> c) a -> after c (a ++ b) = after c b.
Proof. induction 1 as [|x a X _ IH]; [reflexivity|]. cbn [app after]. rewrite (proj2 (Z.eqb_neq _ _) X), IH. reflexivity. Qed.
Lemma upto_in c b x : In x (upto c b) -> In x b.
Proof. induction b as [|y b IH]; [auto|]. cbn [upto]. destruct (y =? c); [intros []|]. intros [->|H]; [now left|right; auto]. Qed.
Lemma escapes_app a b : Forall (fun x => x <> 37) a -> escapes_ok (a ++ b) = escapes_ok b.
Proof. induction 1 as [|x a X _ IH]; [reflexivity|]. cbn [app escapes_ok]. rewrite (proj2 (Z.eqb_neq _ _) X), IH. reflexivity. Qed.
Lemma written_app a k : Forall usual a -> written k -> written (a ++ k).
Proof. induction 1; intros W; [exact W|]. cbn [app]. constructor; auto. Qed.
Lemma written_facts a : written a -> upto 35 a = a /\ after 35 a = [] /\ existsb ctl a = false /\ escapes_ok (upto 63 a) = true.
Proof.
  assert (P : forall c, usual c \/ hex_digit c -> (c =? 35) = false /\ (c =? 37) = false /\ ctl c = false).
  { unfold usual, hex_digit, ctl. intros c H. rewrite !Z.eqb_neq, orb_false_iff, Z.ltb_ge, Z.eqb_neq. lia. }
  assert (Q : forall c, hex_digit c -> (c =? 63) = false) by (unfold hex_digit; intros c H; apply Z.eqb_neq; lia).
  induction 1 as [|c k U W (I1 & I2 & I3 & I4)|h1 h2 k H1 H2 W (I1 & I2 & I3 & I4)]; [repeat split| |].
  - destruct (P c (or_introl U)) as (P1 & P2 & P3). cbn [upto after existsb]. rewrite P1, P3, I1, I2, I3. split; [reflexivity|]. split; [reflexivity|].
    split; [reflexivity|]. destruct (c =? 63); [reflexivity|]. cbn [escapes_ok]. rewrite P2. exact I4.
  - destruct (P h1 (or_intror H1)) as (P1 & P2 & P3). destruct (P h2 (or_intror H2)) as (P4 & P5 & P6).
    cbn [upto after existsb]. change (37 =? 35) with false. change (37 =? 63) with false. change (ctl 37) with false. cbn iota.
    rewrite P1, P4, P3, P6, I1, I2, I3, (Q h1 H1), (Q h2 H2). split; [reflexivity|]. split; [reflexivity|]. split; [reflexivity|].
    cbn [escapes_ok]. change (37 =? 37) with true. cbn iota. rewrite (proj2 (ishex_ok h1) H1), (proj2 (ishex_ok h2) H2). exact I4.
Qed.
Lemma written_url a : written a -> url_ok a = true.
Proof. intros W. destruct (written_facts a W) as (E1 & E2 & E3 & E4). unfold url_ok. rewrite E1, E2, E3, E4. reflexivity. Qed.
Lemma ctl_bad a c b : Forall usual a -> ctl c = true -> url_ok (a ++ c :: b) = false.
Proof.
  intros H K. unfold url_ok.
  assert (N35 : Forall (fun x => x <> 35) a) by (eapply Forall_impl; [|exact H]; unfold usual; intros; lia).
  rewrite upto_app by exact N35. cbn [upto]. assert (c =? 35 = false) as ->.
  { apply Z.eqb_neq. intros ->. discriminate K. }
  rewrite existsb_app. cbn [existsb]. rewrite K. rewrite orb_true_r. reflexivity.
Qed.
Lemma escape_bad a b : Forall (fun c => usual c /\ c <> 63) a -> (forall h1 h2 t, b = h1 :: h2 :: t -> ishex h1 && ishex h2 = false) ->
  url_ok (a ++ 37 :: b) = false.
Proof.
  intros H K. unfold url_ok.
  assert (N35 : Forall (fun x => x <> 35) a) by (eapply Forall_impl; [|exact H]; unfold usual; cbn beta; intros; lia).
  assert (N63 : Forall (fun x => x <> 63) a) by (eapply Forall_impl; [|exact H]; unfold usual; cbn beta; intros; lia).
  assert (N37 : Forall (fun x => x <> 37) a) by (eapply Forall_impl; [|exact H]; unfold usual; cbn beta; intros; lia).
  rewrite upto_app by exact N35. change (upto 35 (37 :: b)) with (37 :: upto 35 b). rewrite upto_app by exact N63.
  change (upto 63 (37 :: upto 35 b)) with (37 :: upto 63 (upto 35 b)). rewrite escapes_app by exact N37.
  assert (E : escapes_ok (37 :: upto 63 (upto 35 b)) = false); [|rewrite E, andb_false_r; reflexivity].
  change (escapes_ok (37 :: upto 63 (upto 35 b))) with
    (match upto 63 (upto 35 b) with h1 :: h2 :: t => ishex h1 && ishex h2 && escapes_ok t | _ => false end).
  destruct b as [|h1 b]; [reflexivity|]. cbn [upto]. destruct (h1 =? 35); [reflexivity|]. cbn [upto]. destruct (h1 =? 63); [reflexivity|].
  destruct b as [|h2 b]; [reflexivity|]. cbn [upto]. destruct (h2 =? 35); [reflexivity|]. cbn [upto]. destruct (h2 =? 63); [reflexivity|].
  rewrite (K h1 h2 b eq_refl). reflexivity.
Qed.

Definition usualb (c : Z) : bool := (32 <=? c) && negb (c =? 127) && negb (c =? 35) && negb (c =? 37) && negb (c =? 63).
Lemma usualb_ok l : forallb usualb l = true -> Forall (fun c => usual c /\ c <> 63) l.
Proof.
  intros H. apply Forall_forall. intros c Hc. rewrite forallb_forall in H. specialize (H c Hc). unfold usualb in H.
  repeat (apply andb_prop in H; destruct H as [H ?]). apply Z.leb_le in H.
  repeat match goal with X : negb _ = true |- _ => apply negb_true_iff, Z.eqb_neq in X end. unfold usual. lia.
Qed.
Definition base (cdn : Z) : bytes := (if cdn =? 2 then cdn2_url else cdn_url) ++ att_path.
Lemma base_usual cdn : Forall (fun c => usual c /\ c <> 63) (base cdn).
Proof. unfold base. destruct (cdn =? 2); apply usualb_ok; reflexivity. Qed.
Lemma usual_only l : Forall (fun c => usual c /\ c <> 63) l -> Forall usual l.
Proof. apply Forall_impl. intros c (H & _). exact H. Qed.
Lemma key_location k key cdn : attachment_location (by_key k key cdn) = base (match cdn with Some c => c | None => 0 end) ++ k.
Proof. unfold attachment_location, getAttachmentLocation, by_key, base. cbn [ap_id ap_cdn]. change (0 =? 0) with true. cbn iota. now rewrite <- app_assoc. Qed.

(* Addresses that are understood: all whose key has only usual characters and escapes. *)
Theorem C230_usual_names : forall net k key cdn, written k ->
  fetch net (by_key k key cdn) = match net (attachment_location (by_key k key cdn)) with NoAnswer e => Err e | Answered _ b => b end.
Proof.
  intros net k key cdn H. unfold fetch, getAttachment. rewrite written_url; [reflexivity|]. rewrite key_location. apply written_app; [|exact H].
  apply usual_only, base_usual.
Qed.
Print Assumptions C230_usual_names.
(* What can go wrong with such an attachment and is an error, and no more: no answer, an answer that breaks off, and
   an answer of at least 32 bytes that is not the one that was sealed. *)
Theorem C230_error_partial : forall C ou net k key cdn, written k -> 32 <= zlen key ->
  (forall st b, net (attachment_location (by_key k (Some key) cdn)) = Answered st b ->
     b <> Panic /\ forall x, b = Ok x -> 32 <= zlen x /\
       beq (hmac C (skipn 32 key) (firstn (Z.to_nat (zlen x - 32)) x)) (skipn (Z.to_nat (zlen x - 32)) x) = false) ->
  exists e, handleSingleAttachment C (with_net ou net) (by_key k (Some key) cdn) = Err e.
Proof.
  intros C ou net k key cdn H K A. unfold handleSingleAttachment. cbn [with_net ou_fetch]. rewrite C230_usual_names by exact H.
  destruct (net _) as [e|st b] eqn:N; [exists e; reflexivity|]. destruct (A st b eq_refl) as (NP & B). destruct b as [x|e|]; [|exists e; reflexivity|contradiction].
  destruct (B x eq_refl) as (L & M). cbn [bind]. cbv zeta. cbn [by_key ap_key g_bytes].
  rewrite (proj2 (Z.ltb_ge (zlen key) 32) K), (proj2 (Z.ltb_ge (zlen x - 32) 0) ltac:(lia)). cbn [orb].
  unfold Cbc.verifyMAC. rewrite M. exists EMac. reflexivity.
Qed.
Print Assumptions C230_error_partial.

(* Addresses that are not understood end the process, whatever the network does: a control character in the key, or a
   percent sign without two hexadecimal digits behind it. *)
Theorem C230_bad_names : forall C ou net k key cdn,
  (exists a c b, k = a ++ c :: b /\ Forall usual a /\ (0 <= c < 32 \/ c = 127)) \/
  (exists a b, k = a ++ 37 :: b /\ Forall (fun c => usual c /\ c <> 63) a /\ forall h1 h2 t, b = h1 :: h2 :: t -> ~ (hex_digit h1 /\ hex_digit h2)) ->
  handleSingleAttachment C (with_net ou net) (by_key k key cdn) = Panic.
Proof.
  intros C ou net k key cdn H. unfold handleSingleAttachment. cbn [with_net ou_fetch]. unfold fetch, getAttachment.
  assert (E : url_ok (attachment_location (by_key k key cdn)) = false); [|rewrite E; reflexivity].
  rewrite key_location. destruct H as [(a & c & b & -> & U & R)|(a & b & -> & U & R)]; rewrite app_assoc.
  - apply ctl_bad; [apply Forall_app; split; [apply usual_only, base_usual|exact U]|]. unfold ctl.
    destruct R as [R| ->]; [|apply orb_true_r]. rewrite (proj2 (Z.ltb_lt c 32)) by lia. reflexivity.
  - apply escape_bad; [apply Forall_app; split; [apply base_usual|exact U]|]. intros h1 h2 t Y. apply not_true_iff_false. intros X. apply andb_prop in X.
    destruct X as (X1 & X2). apply (R h1 h2 t Y). split; apply ishex_ok; assumption.
Qed.
Print Assumptions C230_bad_names.
(* So does an answer of less than 32 bytes, whatever its status: an attachment that is no longer there, for instance. *)
Theorem C230_short_answer : forall C ou net k key cdn st b, written k ->
  net (attachment_location (by_key k key cdn)) = Answered st (Ok b) -> zlen b < 32 ->
  handleSingleAttachment C (with_net ou net) (by_key k key cdn) = Panic.
Proof.
  intros C ou net k key cdn st b H N L. unfold handleSingleAttachment. cbn [with_net ou_fetch]. rewrite C230_usual_names, N by exact H. cbn [bind].
  cbv zeta. rewrite (proj2 (Z.ltb_lt (zlen b - 32) 0)) by lia. rewrite orb_true_r. reflexivity.
Qed.
Print Assumptions C230_short_answer.
(* A message of a peer with such an attachment ends the process. *)
Theorem C230_message : forall C ou src uuid ts d more a, peer_ok d -> further more -> zlen (posted d more) < 2 ^ 63 ->
  d_flags d = None -> In a (d_atts d) -> (forall x, In x (d_atts d) -> handleSingleAttachment C ou x = Panic \/ exists b, handleSingleAttachment C ou x = Ok b) ->
  handleSingleAttachment C ou a = Panic -> fst (handleMessage C ou src uuid ts (posted d more)) = Panic.
Proof.
  intros C ou src uuid ts d more a K FU F NF X ALL P. rewrite C221_read by assumption. unfold handleDataMessage, handleFlags. rewrite NF.
  cbn [g_num]. change (0 =? 1) with false. change (0 =? 4) with false. cbn iota. unfold andthen, pure.
  assert (E : handleAttachments C ou (d_atts d) = Panic).
  { clear -X ALL P. induction (d_atts d) as [|x l IH]; [destruct X|]. cbn [handleAttachments]. destruct (ALL x (or_introl eq_refl)) as [Y|(b & Y)].
    - rewrite Y. reflexivity.
    - rewrite Y. cbn [bind]. destruct X as [->|X]; [congruence|]. rewrite IH; [reflexivity|exact X|]. intros y Hy. apply ALL. now right. }
  rewrite E. reflexivity.
Qed.
Print Assumptions C230_message.

(* Two messages of a peer: one names an attachment "%", the other one that the server no longer has. Its key has all 64
   bytes. *)
Definition gone (_ : bytes) : answer := Answered 404 (Ok []).
Definition c_percent := Eval vm_compute in marshal_data (text_msg (Some 77) 0 [by_key [37] (Some (repeat 5 64)) (Some 2)]).
Definition c_gone := Eval vm_compute in marshal_data (text_msg (Some 77) 0 [by_key [97; 98] (Some (repeat 5 64)) (Some 2)]).
Definition w_percent := Eval vm_compute in ex_wire c_percent.
Definition w_gone := Eval vm_compute in ex_wire c_gone.
Theorem C230_process_ends_refuted : exists C ou net st rnd rnd2 e1 e2, crypto_ok C /\
  (forall u, net u = Answered 404 (Ok [])) /\
  fst (handleReceivedMessage C (with_net ou net) st rnd rnd2 (Some e1)) = Panic /\
  fst (handleReceivedMessage C (with_net ou net) st rnd rnd2 (Some e2)) = Panic /\
  fst (handleReceivedMessage C (with_net ou (fun _ => NoAnswer EOther)) st rnd rnd2 (Some e1)) = Panic /\
  fst (handleReceivedMessage C (with_net ou (fun _ => NoAnswer EOther)) st rnd rnd2 (Some e2)) = Err EOther.
Proof.
  exists toy, (ex_outside no_fetch), gone, ex_B, ex_r, ex_r, (ex_env w_percent), (ex_env w_gone).
  split; [exact toy_ok|]. split; [reflexivity|]. split; [vm_compute; reflexivity|]. split; [vm_compute; reflexivity|]. split; vm_compute; reflexivity.
Qed.
Print Assumptions C230_process_ends_refuted.
Example C230_example : written [97; 37; 50; 70; 63; 98] /\
  handleSingleAttachment toy (with_net (ex_outside no_fetch) (fun _ => Answered 404 (Ok (repeat 32 40)))) (by_key [97; 37; 50; 70; 63; 98] (Some (repeat 5 64)) (Some 2)) = Err EMac /\
  url_ok (attachment_location (by_key [37; 50; 70; 35; 10; 63; 37] None None)) = false /\
  url_ok (attachment_location (by_key [37; 50; 70; 63; 37; 35; 10] None None)) = true /\
  url_ok (attachment_location (by_key [35; 37] None None)) = false.
Proof.
  split.
  { constructor; [unfold usual; lia|]. constructor; [unfold hex_digit; lia|unfold hex_digit; lia|]. repeat (constructor; [unfold usual; lia|]). constructor. }
  split; [vm_compute; reflexivity|]. split; [vm_compute; reflexivity|]. split; vm_compute; reflexivity.
Qed.
