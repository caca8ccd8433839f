(* C136 sealed requests do not say who makes them; C137 requests name the configured client and not its proxy; C138 the password
   goes to the configured host only; C139 only servers with a certificate from the configured authority are talked to; C140
   credentials arrive as they are; C141 a refusal of credentials is an error. *)
From Coq Require Import ZArith List Lia Bool.
From Verif Require Import Bytes Res Encodings PropEncodings Transport.
Import ListNotations.
Open Scope Z_scope.

(* ---- what the theorems speak about ---- *)

Definition value (h : header) (r : request) : list bytes := map snd (filter (fun e => header_eqb (fst e) h) (r_headers r)).

Fixpoint upto (stop : Z -> bool) (l : bytes) : bytes :=
  match l with [] => [] | c :: t => if stop c then [] else c :: upto stop t end.
Fixpoint after_last (x : Z) (l : bytes) : bytes :=
  match l with [] => [] | c :: t => if existsb (Z.eqb x) t then after_last x t else if c =? x then t else l end.
(* The host, with its port, of an absolute address: what follows the two slashes up to a slash, a question mark or a number sign,
   without the part before the last at sign (RFC 3986, 3.2; net/url). *)
Definition str_https : bytes := [104; 116; 116; 112; 115; 58; 47; 47].
Definition ends_authority (c : Z) : bool := (c =? 47) || (c =? 63) || (c =? 35).
Definition host_of (url : bytes) : option bytes :=
  if beq (firstn 8 url) str_https then Some (after_last 64 (upto ends_authority (skipn 8 url))) else None.
Definition plain_host (h : bytes) : Prop := Forall (fun c => ends_authority c = false /\ c <> 64) h.

(* what the receiver of an Authorization header does with it: the base64 text is decoded and cut at the first colon *)
Fixpoint cut (l : bytes) : option (bytes * bytes) :=
  match l with
  | [] => None
  | c :: t => if c =? 58 then Some ([], t) else match cut t with Some (a, b) => Some (c :: a, b) | None => None end
  end.
Definition read_auth (h : bytes) : option (bytes * bytes) :=
  if beq (firstn 6 h) str_basic then match dec64 (skipn 6 h) with Ok p => cut p | _ => None end else None.
Definition no_colon (l : bytes) : Prop := Forall (fun c => c <> 58) l.

(* the TLS client of Go accepts a chain if it was told not to verify, or if the chain leads to a root *)
Definition accepts (t : tls) (leads_to : bytes -> bytes -> bool) (chain : bytes) : bool := t_skip t || existsb (leads_to chain) (t_roots t).

(* every way of making a request *)
Inductive made (t : transporter) : request -> Prop :=
| M1 url : made t (Get t url) | M2 url a : made t (GetWithAuth t url a) | M3 url : made t (Del t url)
| M4 url b ct n hs : made t (PostWithHeaders t url b ct n hs) | M5 url b ct : made t (Put t url b ct)
| M6 url b ct a : made t (PutWithAuth t url b ct a) | M7 url b ct a : made t (PatchWithAuth t url b ct a)
| M8 url k : made t (GetWithUnidentifiedAccessKey t url k) | M9 url b ct k : made t (PutWithUnidentifiedSender t url b ct k)
| M10 url b ct a c : made t (PutWithAuthCookies t url b ct a c).

(* ---- proofs ---- *)
Lemma heqb_refl h : header_eqb h h = true.
Proof. destruct h; try reflexivity. apply beq_refl. Qed.
Lemma heqb_eq a b : header_eqb a b = true -> a = b.
Proof. destruct a, b; cbn [header_eqb]; intros H; try discriminate H; try reflexivity. apply beq_eq in H. f_equal. exact H. Qed.

Definition val (h : header) (l : headers) : list bytes := map snd (filter (fun e => header_eqb (fst e) h) l).
Lemma val_app h a b : val h (a ++ b) = val h a ++ val h b.
Proof. unfold val. rewrite filter_app, map_app. reflexivity. Qed.
Lemma val_set_same h v l : val h (hset h v l) = [v].
Proof.
  unfold hset. rewrite val_app. unfold val at 2. cbn [filter fst]. rewrite heqb_refl. cbn [map snd].
  replace (val h (filter (fun e => negb (header_eqb (fst e) h)) l)) with (@nil bytes); [reflexivity|].
  symmetry. unfold val. induction l as [|e l IH]; [reflexivity|]. cbn [filter]. destruct (header_eqb (fst e) h) eqn:E; cbn [negb]; [exact IH|].
  cbn [filter]. rewrite E. exact IH.
Qed.
Lemma val_set_other h k v l : h <> k -> val h (hset k v l) = val h l.
Proof.
  intros N. unfold hset. rewrite val_app.
  assert (E : header_eqb k h = false) by (destruct (header_eqb k h) eqn:E; [apply heqb_eq in E; elim N; symmetry; exact E|reflexivity]).
  unfold val at 2. cbn [filter fst]. rewrite E. cbn [map]. rewrite app_nil_r. unfold val. f_equal.
  induction l as [|e l IH]; [reflexivity|]. cbn [filter]. destruct (header_eqb (fst e) k) eqn:K; cbn [negb].
  - destruct (header_eqb (fst e) h) eqn:H; [|exact IH]. apply heqb_eq in K, H. elim N. rewrite <- H, <- K. reflexivity.
  - cbn [filter]. destruct (header_eqb (fst e) h); [f_equal|]; exact IH.
Qed.
Lemma val_add_other h k v l : h <> k -> val h (hadd k v l) = val h l.
Proof.
  intros N. unfold hadd. rewrite val_app.
  assert (E : header_eqb k h = false) by (destruct (header_eqb k h) eqn:E; [apply heqb_eq in E; elim N; symmetry; exact E|reflexivity]).
  unfold val at 2. cbn [filter fst]. rewrite E. cbn [map]. apply app_nil_r.
Qed.
Lemma val_agent t l : t_agent t <> [] -> val Agent (set_agent t l) = [t_agent t].
Proof. intros N. unfold set_agent. destruct (t_agent t) as [|a b]; [elim N; reflexivity|]. apply val_set_same. Qed.

Ltac ne := let X := fresh in intros X; discriminate X.

(* C136. A request with an access key is the same whatever the account and its password are ... *)
Theorem C136_sealed_requests_are_anonymous : forall base u1 p1 u2 p2 ua proxy ca url body ct key,
  let t1 := newHTTPTransporter base u1 p1 ua proxy ca in
  let t2 := newHTTPTransporter base u2 p2 ua proxy ca in
  PutWithUnidentifiedSender t1 url body ct key = PutWithUnidentifiedSender t2 url body ct key /\
  GetWithUnidentifiedAccessKey t1 url key = GetWithUnidentifiedAccessKey t2 url key /\
  value Authorization (PutWithUnidentifiedSender t1 url body ct key) = [] /\ value Authorization (GetWithUnidentifiedAccessKey t1 url key) = [].
Proof.
  intros base u1 p1 u2 p2 ua proxy ca url body ct key t1 t2. split; [reflexivity|]. split; [reflexivity|].
  unfold value. fold (val Authorization (r_headers (PutWithUnidentifiedSender t1 url body ct key))).
  fold (val Authorization (r_headers (GetWithUnidentifiedAccessKey t1 url key))).
  unfold PutWithUnidentifiedSender, GetWithUnidentifiedAccessKey. cbn [r_headers].
  rewrite !val_set_other by ne. rewrite val_add_other by ne.
  assert (E : val Authorization (set_agent t1 []) = []).
  { unfold set_agent. destruct (t_agent t1); [reflexivity|]. rewrite val_set_other by ne. reflexivity. }
  split; exact E.
Qed.
Print Assumptions C136_sealed_requests_are_anonymous.
(* ... and has the key in a form from which it can be read. *)
Theorem C136_key_is_readable : forall t url body ct key, wfb key ->
  (exists v, value AccessKey (PutWithUnidentifiedSender t url body ct key) = [v] /\ Base64DecodeNonPadded v = Ok key) /\
  (exists v, value AccessKey (GetWithUnidentifiedAccessKey t url key) = [v] /\ dec64 v = Ok key).
Proof.
  intros t url body ct key W. split.
  - exists (Base64EncWithoutPadding key). split; [|apply C51_base64_round_trip; exact W]. apply val_set_same.
  - exists (enc64 key). split; [|apply dec64_enc64; exact W]. apply val_set_same.
Qed.
Print Assumptions C136_key_is_readable.

(* C137. Every request made names the configured proxy server as the client that makes it ... *)
Theorem C137_proxy_in_every_request : forall base u p ua proxy ca r, made (newHTTPTransporter base u p ua proxy ca) r ->
  proxy <> [] -> value Agent r = [proxy].
Proof.
  intros base u p ua proxy ca r M N. set (t := newHTTPTransporter base u p ua proxy ca) in *.
  assert (A : forall l, val Agent (set_agent t l) = [proxy]) by (intros l; exact (val_agent t l N)).
  unfold value. fold (val Agent (r_headers r)).
  destruct M; unfold Get, GetWithAuth, Del, PostWithHeaders, Put, PutWithAuth, PatchWithAuth, GetWithUnidentifiedAccessKey,
    PutWithUnidentifiedSender, PutWithAuthCookies; cbn [r_headers]; rewrite val_set_other by ne;
    repeat (rewrite val_add_other by ne); apply A.
Qed.
Print Assumptions C137_proxy_in_every_request.
(* ... and none depends on the configured user agent. *)
Theorem C137_agent_is_never_sent : forall base u p ua1 ua2 proxy ca url body ct auth key cookies n hs,
  let t1 := newHTTPTransporter base u p ua1 proxy ca in let t2 := newHTTPTransporter base u p ua2 proxy ca in
  Get t1 url = Get t2 url /\ GetWithAuth t1 url auth = GetWithAuth t2 url auth /\ Del t1 url = Del t2 url /\
  PostWithHeaders t1 url body ct n hs = PostWithHeaders t2 url body ct n hs /\ Put t1 url body ct = Put t2 url body ct /\
  PutWithAuth t1 url body ct auth = PutWithAuth t2 url body ct auth /\ PatchWithAuth t1 url body ct auth = PatchWithAuth t2 url body ct auth /\
  GetWithUnidentifiedAccessKey t1 url key = GetWithUnidentifiedAccessKey t2 url key /\
  PutWithUnidentifiedSender t1 url body ct key = PutWithUnidentifiedSender t2 url body ct key /\
  PutWithAuthCookies t1 url body ct auth cookies = PutWithAuthCookies t2 url body ct auth cookies.
Proof. intros base u p ua1 ua2 proxy ca url body ct auth key cookies n hs t1 t2. repeat (split; [reflexivity|]). reflexivity. Qed.
Print Assumptions C137_agent_is_never_sent.
(* "OWA" as user agent and "http://u:pw@px:1" as proxy *)
Definition ex_agent : bytes := [79; 87; 65].
Definition ex_proxy : bytes := [104; 116; 116; 112; 58; 47; 47; 117; 58; 112; 119; 64; 112; 120; 58; 49].
Theorem C137_agent_is_sent_refuted : exists base u p ua proxy ca r, made (newHTTPTransporter base u p ua proxy ca) r /\
  ua <> [] /\ proxy <> [] /\ value Agent r = [proxy] /\ ~ In ua (value Agent r).
Proof.
  exists [], [49], [50], ex_agent, ex_proxy, [], (Get (newHTTPTransporter [] [49] [50] ex_agent ex_proxy []) [47]).
  split; [apply M1|]. split; [ne|]. split; [ne|].
  assert (E : value Agent (Get (newHTTPTransporter [] [49] [50] ex_agent ex_proxy []) [47]) = [ex_proxy]) by (vm_compute; reflexivity).
  rewrite E. split; [reflexivity|]. intros [H|[]]. discriminate H.
Qed.
Print Assumptions C137_agent_is_sent_refuted.

(* C138. Whatever is asked for, as long as it starts with a slash the request goes to the host of the transporter. *)
Lemma upto_plain h rest : plain_host h -> upto ends_authority (h ++ 47 :: rest) = h.
Proof.
  intros P. induction P as [|c h [E _] _ IH]; [reflexivity|]. cbn [app upto]. rewrite E. f_equal. exact IH.
Qed.
Lemma no_at h : plain_host h -> existsb (Z.eqb 64) h = false.
Proof.
  intros P. induction P as [|c h [_ E] _ IH]; [reflexivity|]. cbn [existsb]. rewrite IH, orb_false_r. apply Z.eqb_neq.
  intros X. elim E. symmetry. exact X.
Qed.
Lemma after_last_plain h : plain_host h -> after_last 64 h = h.
Proof.
  intros P. destruct h as [|c h]; [reflexivity|]. pose proof (no_at _ P) as N. cbn [existsb] in N. apply orb_false_iff in N. destruct N as [N1 N2].
  cbn [after_last]. rewrite N2. rewrite Z.eqb_sym, N1. reflexivity.
Qed.
Lemma host_of_plain h path : plain_host h -> host_of (str_https ++ h ++ 47 :: path) = Some h.
Proof.
  intros P. unfold host_of. change (firstn 8 (str_https ++ h ++ 47 :: path)) with str_https. rewrite beq_refl.
  change (skipn 8 (str_https ++ h ++ 47 :: path)) with (h ++ 47 :: path). rewrite upto_plain by exact P.
  rewrite after_last_plain by exact P. reflexivity.
Qed.
Theorem C138_host_is_configured : forall h u p ua proxy ca r, plain_host h -> made (newHTTPTransporter (str_https ++ h) u p ua proxy ca) r ->
  exists url, r_url r = (str_https ++ h) ++ url /\ (forall rest, url = 47 :: rest -> host_of (r_url r) = Some h).
Proof.
  intros h u p ua proxy ca r P M.
  assert (E : exists url, r_url r = (str_https ++ h) ++ url) by (destruct M; exists url; reflexivity).
  destruct E as [url E]. exists url. split; [exact E|]. intros rest R. rewrite E, R, <- app_assoc. apply host_of_plain. exact P.
Qed.
Print Assumptions C138_host_is_configured.
(* So does the request for the image of a profile asked for by UUID, whatever the server said its name is. *)
Theorem C138_avatar_by_uuid : forall h u p ua proxy ca avatar, plain_host h ->
  exists r, avatar_by_uuid (newHTTPTransporter (str_https ++ h) u p ua proxy ca) avatar = Some r /\ host_of (r_url r) = Some h.
Proof.
  intros h u p ua proxy ca avatar P. exists (Get (newHTTPTransporter (str_https ++ h) u p ua proxy ca) (47 :: avatar)). split; [reflexivity|].
  unfold Get, newHTTPTransporter. cbn [r_url t_base]. rewrite <- app_assoc. apply host_of_plain. exact P.
Qed.
Print Assumptions C138_avatar_by_uuid.

Lemma cut_colon u p : no_colon u -> cut (u ++ 58 :: p) = Some (u, p).
Proof.
  intros N. induction N as [|c u E _ IH]; [reflexivity|]. cbn [app cut]. destruct (Z.eqb_spec c 58) as [X|_]; [elim E; exact X|].
  rewrite IH. reflexivity.
Qed.
Lemma read_basic x : wfb x -> read_auth (str_basic ++ enc64 x) = cut x.
Proof.
  intros W. unfold read_auth. change (firstn 6 (str_basic ++ enc64 x)) with str_basic. rewrite beq_refl.
  change (skipn 6 (str_basic ++ enc64 x)) with (enc64 x). rewrite dec64_enc64 by exact W. reflexivity.
Qed.
Lemma wfb_userpass u p : wfb u -> wfb p -> wfb (u ++ [58] ++ p).
Proof. intros U P. apply Forall_app. split; [exact U|]. apply Forall_cons; [unfold isbyte; lia|exact P]. Qed.

(* The request for the image of a profile asked for by number goes to whatever host the server's answer wants it to go to, with the
   name and the password of the account. *)
Theorem C138_any_host_gets_the_password : forall h u p ua proxy ca evil rest, plain_host h -> plain_host evil -> wfb u -> wfb p -> no_colon u ->
  exists r a, avatar_by_number (newHTTPTransporter (str_https ++ h) u p ua proxy ca) (64 :: evil ++ 47 :: rest) = Some r /\
    host_of (r_url r) = Some evil /\ value Authorization r = [a] /\ read_auth a = Some (u, p).
Proof.
  intros h u p ua proxy ca evil rest Ph Pe U P N. set (t := newHTTPTransporter (str_https ++ h) u p ua proxy ca).
  exists (Get t (64 :: evil ++ 47 :: rest)), (basicAuth u p). split; [reflexivity|]. split; [|split].
  - unfold Get, t, newHTTPTransporter. cbn [r_url t_base]. unfold host_of. rewrite <- app_assoc.
    change (firstn 8 (str_https ++ h ++ 64 :: evil ++ 47 :: rest)) with str_https. rewrite beq_refl.
    change (skipn 8 (str_https ++ h ++ 64 :: evil ++ 47 :: rest)) with (h ++ 64 :: evil ++ 47 :: rest). f_equal.
    assert (E : upto ends_authority (h ++ 64 :: evil ++ 47 :: rest) = h ++ 64 :: evil).
    { clear - Ph Pe. induction Ph as [|c h [E _] _ IH].
      - cbn [app upto]. change (ends_authority 64) with false. cbv iota. f_equal. apply upto_plain. exact Pe.
      - cbn [app upto]. rewrite E. f_equal. exact IH. }
    rewrite E. clear - Ph Pe. induction Ph as [|c h _ _ IH].
    + cbn [app after_last]. rewrite no_at by exact Pe. reflexivity.
    + cbn [app after_last].
      assert (X : existsb (Z.eqb 64) (h ++ 64 :: evil) = true) by (rewrite existsb_app; cbn [existsb]; rewrite orb_true_r; reflexivity).
      rewrite X. exact IH.
  - apply val_set_same.
  - unfold basicAuth. rewrite read_basic by (apply wfb_userpass; assumption). apply cut_colon. exact N.
Qed.
Print Assumptions C138_any_host_gets_the_password.
(* "cdn2.signal.org", "evil.org" *)
Definition ex_cdn : bytes := [99; 100; 110; 50; 46; 115; 105; 103; 110; 97; 108; 46; 111; 114; 103].
Definition ex_evil : bytes := [101; 118; 105; 108; 46; 111; 114; 103].
Theorem C138_password_only_to_the_configured_host_refuted : exists h u p ua proxy ca avatar r a other,
  avatar_by_number (newHTTPTransporter (str_https ++ h) u p ua proxy ca) avatar = Some r /\
  host_of (r_url r) = Some other /\ other <> h /\ value Authorization r = [a] /\ read_auth a = Some (u, p).
Proof.
  assert (Pc : plain_host ex_cdn) by (repeat (apply Forall_cons; [split; [reflexivity|lia]|]); apply Forall_nil).
  assert (Pe : plain_host ex_evil) by (repeat (apply Forall_cons; [split; [reflexivity|lia]|]); apply Forall_nil).
  assert (W : forall x, isbyte x -> wfb [x]) by (intros x X; apply Forall_cons; [exact X|apply Forall_nil]).
  assert (N : no_colon [49]) by (apply Forall_cons; [lia|apply Forall_nil]).
  destruct (C138_any_host_gets_the_password ex_cdn [49] [50] ex_agent [] [] ex_evil [120] Pc Pe
    (W 49 ltac:(unfold isbyte; lia)) (W 50 ltac:(unfold isbyte; lia)) N) as (r & a & R & H & V & A).
  exists ex_cdn, [49], [50], ex_agent, [], [], (64 :: ex_evil ++ [47; 120]), r, a, ex_evil.
  split; [exact R|]. split; [exact H|]. split; [apply beq_neq; vm_compute; reflexivity|]. split; assumption.
Qed.
Print Assumptions C138_password_only_to_the_configured_host_refuted.
Example C138_example : host_of (str_https ++ ex_cdn ++ [47; 64] ++ ex_evil) = Some ex_cdn /\ host_of (str_https ++ ex_cdn ++ 46 :: ex_evil) <> Some ex_cdn.
Proof. split; [vm_compute; reflexivity|]. intros H. vm_compute in H. discriminate H. Qed.

(* C139. Every chain of certificates is accepted, whatever the roots. *)
Theorem C139_any_certificate : forall base u p ua proxy ca leads_to chain, accepts (t_tls (newHTTPTransporter base u p ua proxy ca)) leads_to chain = true.
Proof. reflexivity. Qed.
Print Assumptions C139_any_certificate.
Theorem C139_roots_decide_refuted : exists base u p ua proxy ca leads_to chain,
  existsb (leads_to chain) ca = false /\ accepts (t_tls (newHTTPTransporter base u p ua proxy ca)) leads_to chain = true.
Proof. exists [], [], [], [], [], [[1]], (fun chain root => beq chain root), [2]. split; vm_compute; reflexivity. Qed.
Print Assumptions C139_roots_decide_refuted.

(* C140. The name and the password given to a transporter are what its requests say ... *)
Theorem C140_account_is_named : forall base u p ua proxy ca url body ct, wfb u -> wfb p -> no_colon u ->
  let t := newHTTPTransporter base u p ua proxy ca in
  forall r, In r [Get t url; Del t url; Put t url body ct; PostWithHeaders t url body ct [] []] ->
  exists a, value Authorization r = [a] /\ read_auth a = Some (u, p).
Proof.
  intros base u p ua proxy ca url body ct U P N t r H. exists (basicAuth u p). split.
  - destruct H as [E|[E|[E|[E|[]]]]]; rewrite <- E; apply val_set_same.
  - unfold basicAuth. rewrite read_basic by (apply wfb_userpass; assumption). apply cut_colon. exact N.
Qed.
Print Assumptions C140_account_is_named.
(* ... and credentials given to AsBasic are what it says if they are ASCII ... *)
Lemma ascii_1250 x : Forall (fun c => 0 <= c < 128) x -> flat_map dec1250 x = x.
Proof.
  intros A. induction A as [|c x H _ IH]; [reflexivity|]. cbn [flat_map]. rewrite IH. unfold dec1250.
  destruct (Z.ltb_spec c 128) as [L|L]; [|lia]. unfold utf8. destruct (Z.ltb_spec c 128) as [L2|L2]; [reflexivity|lia].
Qed.
Theorem C140_ascii_credentials_partial : forall u p, Forall (fun c => 0 <= c < 128) u -> Forall (fun c => 0 <= c < 128) p -> no_colon u ->
  read_auth (AsBasic (mkCred u p)) = Some (u, p).
Proof.
  intros u p U P N. unfold AsBasic. cbn [cr_user cr_pass].
  assert (A : Forall (fun c => 0 <= c < 128) (u ++ [58] ++ p)) by (apply Forall_app; split; [exact U|apply Forall_cons; [lia|exact P]]).
  rewrite ascii_1250 by exact A. rewrite read_basic; [apply cut_colon; exact N|].
  apply Forall_forall. intros c H. rewrite Forall_forall in A. specialize (A c H). unfold isbyte. lia.
Qed.
Print Assumptions C140_ascii_credentials_partial.
(* ... but otherwise they are changed: "n" and "é" in UTF-8 become "n" and "Ă©" *)
Theorem C140_credentials_arrive_refuted : exists u p q, no_colon u /\ read_auth (AsBasic (mkCred u p)) = Some (u, q) /\ q <> p.
Proof.
  exists [110], [195; 169], [196; 130; 194; 169]. split; [apply Forall_cons; [lia|apply Forall_nil]|]. split; [vm_compute; reflexivity|].
  intros H. discriminate H.
Qed.
Print Assumptions C140_credentials_arrive_refuted.

(* C141. Credentials are had exactly if the transport worked, whatever the server answered ... *)
Theorem C141_when_an_error : forall r, (exists c, GetCredendtails r = Ok c) <-> r <> None.
Proof.
  intros r. split.
  - intros [c H] E. rewrite E in H. discriminate H.
  - intros N. destruct r as [[st [u p]]|]; [|elim N; reflexivity]. eexists. reflexivity.
Qed.
Print Assumptions C141_when_an_error.
Theorem C141_credentials_as_answered : forall st u p, GetCredendtails (Some (st, (Some u, Some p))) = Ok (mkCred u p).
Proof. reflexivity. Qed.
(* ... so a refusal gives an empty name and an empty password, as which the next request is then made. *)
Theorem C141_refusal_is_an_error_refuted : exists st c, (st < 200 \/ 300 <= st) /\ GetCredendtails (Some (st, (None, None))) = Ok c /\
  read_auth (AsBasic c) = Some ([], []).
Proof. exists 401, (mkCred [] []). split; [lia|]. split; vm_compute; reflexivity. Qed.
Print Assumptions C141_refusal_is_an_error_refuted.
(* ... What arrives is the name and the password read as text of the code page Windows-1250, in UTF-8 ... *)
Definition all_bytes : list Z := map Z.of_nat (seq 0 256).
Lemma in_bytes b : isbyte b -> In b all_bytes.
Proof. unfold isbyte. intros H. apply in_map_iff. exists (Z.to_nat b). split; [lia|]. apply in_seq. lia. Qed.
Lemma by_bytes (f : Z -> bool) : forallb f all_bytes = true -> forall b, isbyte b -> f b = true.
Proof. intros H b B. rewrite forallb_forall in H. apply H, in_bytes, B. Qed.
Lemma wfb_1250 x : wfb x -> wfb (flat_map dec1250 x).
Proof.
  induction 1 as [|b x B _ IH]; [constructor|]. cbn [flat_map]. apply Forall_app. split; [|exact IH]. apply Forall_forall. intros c HC.
  assert (F : forallb (fun b => forallb (fun c => (0 <=? c) && (c <? 256)) (dec1250 b)) all_bytes = true) by (vm_compute; reflexivity).
  pose proof (by_bytes _ F b B) as X. cbv beta in X. rewrite forallb_forall in X. specialize (X c HC). apply andb_true_iff in X. unfold isbyte. lia.
Qed.
Lemma colon_1250 x : wfb x -> no_colon x -> no_colon (flat_map dec1250 x).
Proof.
  intros W. induction W as [|b x B _ IH]; intros N; [constructor|]. inversion N as [|? ? N1 N2]; subst. cbn [flat_map]. apply Forall_app.
  split; [|apply IH, N2]. apply Forall_forall. intros c HC ->.
  assert (F : forallb (fun b => (b =? 58) || forallb (fun c => negb (c =? 58)) (dec1250 b)) all_bytes = true) by (vm_compute; reflexivity).
  pose proof (by_bytes _ F b B) as X. cbv beta in X. apply orb_true_iff in X. destruct X as [X|X]; [lia|]. rewrite forallb_forall in X. specialize (X 58 HC). discriminate X.
Qed.
Theorem C140_what_arrives : forall u p, wfb u -> wfb p -> no_colon u ->
  read_auth (AsBasic (mkCred u p)) = Some (flat_map dec1250 u, flat_map dec1250 p).
Proof.
  intros u p U P N. unfold AsBasic. cbn [cr_user cr_pass]. rewrite read_basic by (apply wfb_1250, wfb_userpass; assumption).
  rewrite !flat_map_app. change (flat_map dec1250 [58]) with [58]. apply cut_colon, colon_1250; assumption.
Qed.
Print Assumptions C140_what_arrives.
(* ... so that letters that differ by case stay so, and the bytes that mean the same in Latin-1 keep their meaning ... *)
Definition char1250 (b : Z) : Z := nth (Z.to_nat (b - 128)) windows1250 0.
Theorem C140_letters : Forall (fun b => char1250 b = char1250 (b - 32) + 1 \/ char1250 b = char1250 (b - 32) + 32) (map Z.of_nat (seq 224 31)) /\
  Forall (fun b => char1250 b = char1250 (b - 16) + 1) [154; 155; 156; 157; 158; 159; 179; 186; 191] /\ char1250 185 = char1250 165 + 1 /\ char1250 190 = char1250 188 + 1 /\
  Forall (fun b => char1250 b = b) [160; 164; 166; 167; 168; 169; 171; 172; 173; 174; 176; 177; 180; 181; 182; 183; 184; 187; 193; 194; 196; 199;
    201; 203; 205; 206; 211; 212; 214; 215; 218; 220; 221; 223; 247].
Proof.
  assert (F : forall (f : Z -> bool) (P : Z -> Prop) l, (forall b, f b = true -> P b) -> forallb f l = true -> Forall P l).
  { intros f P l H X. rewrite forallb_forall in X. apply Forall_forall. intros b HB. apply H, X, HB. }
  split. { apply (F (fun b => (char1250 b =? char1250 (b - 32) + 1) || (char1250 b =? char1250 (b - 32) + 32))); [intros b X; apply orb_true_iff in X; lia|vm_compute; reflexivity]. }
  split. { apply (F (fun b => char1250 b =? char1250 (b - 16) + 1)); [intros b X; lia|vm_compute; reflexivity]. }
  split; [vm_compute; reflexivity|]. split; [vm_compute; reflexivity|].
  apply (F (fun b => char1250 b =? b)); [intros b X; lia|vm_compute; reflexivity].
Qed.
(* ... and different names and passwords never arrive as the same. *)
Definition ulen (c : Z) : nat := if c <? 128 then 1 else if c <? 224 then 2 else 3.
Lemma find_1250 b : isbyte b -> length (dec1250 b) = ulen (hd 0 (dec1250 b)) /\ find (fun c => beq (dec1250 c) (dec1250 b)) all_bytes = Some b.
Proof.
  intros B.
  assert (F : forallb (fun b => (length (dec1250 b) =? ulen (hd 0%Z (dec1250 b)))%nat &&
    match find (fun c => beq (dec1250 c) (dec1250 b)) all_bytes with Some c => c =? b | None => false end) all_bytes = true) by (vm_compute; reflexivity).
  pose proof (by_bytes _ F b B) as X. cbv beta in X. apply andb_true_iff in X. destruct X as [X1 X2]. apply Nat.eqb_eq in X1. split; [exact X1|].
  destruct (find _ all_bytes) as [c|]; [|discriminate X2]. f_equal. lia.
Qed.
Lemma dec_inj b c x y : isbyte b -> isbyte c -> dec1250 b ++ x = dec1250 c ++ y -> b = c /\ x = y.
Proof.
  intros B C H. destruct (find_1250 b B) as [L1 F1], (find_1250 c C) as [L2 F2].
  assert (NE : forall z, isbyte z -> exists h t, dec1250 z = h :: t).
  { intros z Z. destruct (find_1250 z Z) as [L _]. destruct (dec1250 z) as [|h t]; [cbn in L; discriminate L|eauto]. }
  destruct (NE b B) as (h & t & E1), (NE c C) as (h' & t' & E2).
  assert (h = h') by (rewrite E1, E2 in H; injection H as <- _; reflexivity). subst h'.
  assert (L : length (dec1250 b) = length (dec1250 c)) by (rewrite L1, L2, E1, E2; reflexivity).
  assert (E : dec1250 b = dec1250 c /\ x = y).
  { split; [pose proof (f_equal (firstn (length (dec1250 b))) H) as G|pose proof (f_equal (skipn (length (dec1250 b))) H) as G].
    - rewrite L in G at 2. rewrite !firstn_app, !Nat.sub_diag, !firstn_all in G. cbn [firstn] in G. now rewrite !app_nil_r in G.
    - rewrite L in G at 2. rewrite !skipn_app, !Nat.sub_diag, !skipn_all in G. exact G. }
  destruct E as [E ->]. rewrite E in F1. rewrite F2 in F1. injection F1 as ->. auto.
Qed.
Lemma flat_inj x : wfb x -> forall y, wfb y -> flat_map dec1250 x = flat_map dec1250 y -> x = y.
Proof.
  assert (NE : forall b t, isbyte b -> dec1250 b ++ t <> []).
  { intros b t B H. destruct (find_1250 b B) as [L _]. apply app_eq_nil in H. rewrite (proj1 H) in L. discriminate L. }
  induction 1 as [|b x B _ IH]; intros y WY H.
  - destruct WY as [|c y C _]; [reflexivity|]. symmetry in H. destruct (NE c _ C H).
  - destruct WY as [|c y C WY]; [destruct (NE b _ B H)|]. cbn [flat_map] in H. apply dec_inj in H; [|assumption..]. destruct H as [-> H]. f_equal. now apply IH.
Qed.
Theorem C140_distinct : forall u p u' p', wfb u -> wfb p -> no_colon u -> wfb u' -> wfb p' -> no_colon u' ->
  AsBasic (mkCred u p) = AsBasic (mkCred u' p') -> u = u' /\ p = p'.
Proof.
  intros u p u' p' U P N U' P' N' H. pose proof (C140_what_arrives u p U P N) as A. rewrite H, C140_what_arrives in A by assumption.
  injection A as A1 A2. split; apply flat_inj; auto.
Qed.
Print Assumptions C140_distinct.
Example C140_distinct_example : AsBasic (mkCred [110] [195; 169]) <> AsBasic (mkCred [110] [195; 168]).
Proof. apply beq_neq. vm_compute. reflexivity. Qed.
