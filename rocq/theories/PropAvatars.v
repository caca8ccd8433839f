(* C142 the image shown is the one its owner made; C143 refreshing a profile ends without a crash; C144 images are kept apart from
   each other and from everything else; C145 a contact that is said to have an image has one; C146 an image that was taken away is
   gone; C147 a profile can be had by number. *)
From Coq Require Import ZArith List Lia Bool.
From Verif Require Import Bytes Res Crypto Gcm Contacts PropContacts Avatars.
Import ListNotations.
Open Scope Z_scope.

(* ---- what the theorems speak about ---- *)

(* an image as its owner puts it on the server: a nonce of 12 bytes and what AES-GCM makes of the image *)
Definition posted (G : gcm) (key nonce img : bytes) : bytes := nonce ++ seal G key nonce [] img.
(* the name of a file: not empty, without slash, not one of the names of directories *)
Definition file_name (n : bytes) : Prop := n <> [] /\ n <> [46] /\ n <> [46; 46] /\ Forall (fun c => c <> 47) n.
(* a disk on which everything works *)
Definition works (o : io) : Prop := io_mkdir o = true /\ (forall p, io_create o p = true) /\ io_short o = None.
(* the directory the images are in *)
Definition images (o : io) (s : avstate) : path := match av_path s with Some d => d | None => io_storage o ++ [str_avatars] end.

(* ---- proofs ---- *)
Lemma path_eqb_refl p : path_eqb p p = true.
Proof. induction p as [|x p IH]; [reflexivity|]. cbn [path_eqb]. rewrite beq_refl, IH. reflexivity. Qed.
Lemma path_eqb_eq a : forall b, path_eqb a b = true -> a = b.
Proof.
  induction a as [|x a IH]; intros [|y b] H; try reflexivity; try discriminate H. cbn [path_eqb] in H. apply andb_true_iff in H.
  destruct H as [H1 H2]. apply beq_eq in H1. rewrite H1, (IH b H2). reflexivity.
Qed.
Lemma path_eqb_neq a b : a <> b -> path_eqb a b = false.
Proof. intros N. destruct (path_eqb a b) eqn:E; [elim N; apply path_eqb_eq; exact E|reflexivity]. Qed.
Lemma read_write_same p b f : read p (write p b f) = Some b.
Proof.
  induction f as [|[q c] f IH]; cbn [write read]; [rewrite path_eqb_refl; reflexivity|].
  destruct (path_eqb p q) eqn:E; cbn [read]; [rewrite path_eqb_refl; reflexivity|]. rewrite E. exact IH.
Qed.
Lemma read_write_other p q b f : p <> q -> read p (write q b f) = read p f.
Proof.
  intros N. induction f as [|[r c] f IH]; cbn [write read]; [rewrite path_eqb_neq by exact N; reflexivity|].
  destruct (path_eqb q r) eqn:E; cbn [read].
  - apply path_eqb_eq in E. rewrite <- E. rewrite path_eqb_neq by exact N. reflexivity.
  - destruct (path_eqb p r); [reflexivity|exact IH].
Qed.
Lemma parts_plain n : Forall (fun c => c <> 47) n -> parts n = [n].
Proof.
  intros F. induction F as [|c n E _ IH]; [reflexivity|]. cbn [parts]. rewrite (proj2 (Z.eqb_neq c 47) E), IH. reflexivity.
Qed.
Lemma beq_false a b : a <> b -> beq a b = false.
Proof. intros N. destruct (beq a b) eqn:E; [elim N; apply beq_eq; exact E|reflexivity]. Qed.
Lemma join_plain d n : file_name n -> Join d n = d ++ [n].
Proof.
  intros (N1 & N2 & N3 & F). unfold Join. rewrite parts_plain by exact F. cbn [fold_left]. unfold clean_part.
  rewrite (beq_false _ _ N1), (beq_false _ _ N2), (beq_false _ _ N3). reflexivity.
Qed.
Lemma avatars_name : file_name str_avatars.
Proof.
  split; [intros H; discriminate H|]. split; [intros H; discriminate H|]. split; [intros H; discriminate H|].
  repeat (apply Forall_cons; [lia|]). apply Forall_nil.
Qed.
Lemma avatar_file_ok o u s : file_name u -> io_mkdir o = true ->
  exists s', avatar_file o u s = (s', Ok (images o s ++ [u])) /\ av_files s' = av_files s /\ av_path s' = Some (images o s).
Proof.
  intros F M. unfold avatar_file, images. destruct u as [|c u]; [destruct F as [F _]; elim F; reflexivity|].
  destruct (av_path s) as [d|] eqn:P.
  - exists s. rewrite join_plain by exact F. split; [reflexivity|]. split; [reflexivity|exact P].
  - unfold setupAvatarsPath. rewrite M. eexists. split.
    + rewrite (join_plain (io_storage o) str_avatars avatars_name), join_plain by exact F. reflexivity.
    + cbn [av_files av_path]. split; reflexivity.
Qed.
(* the files after saving, whatever happens: only the file of that name may have changed *)
Lemma save_files o u a s q : file_name u -> q <> images o s ++ [u] ->
  read q (av_files (fst (saveLocalAvatar o u a s))) = read q (av_files s).
Proof.
  intros F N. unfold saveLocalAvatar. destruct u as [|c u]; [reflexivity|]. destruct a as [|x a]; [reflexivity|].
  destruct (io_mkdir o) eqn:M.
  - destruct (avatar_file_ok o (c :: u) s F M) as (s' & E & Fs & _). rewrite E.
    destruct (io_create o _); [|cbn [fst]; rewrite Fs; reflexivity].
    destruct (io_short o) as [k|]; cbn [fst av_files]; rewrite read_write_other by exact N; rewrite Fs; reflexivity.
  - unfold avatar_file, images in *. destruct (av_path s) as [d|] eqn:P.
    + rewrite join_plain by exact F. destruct (io_create o _); [|reflexivity].
      destruct (io_short o) as [k|]; cbn [fst av_files]; apply read_write_other; exact N.
    + unfold setupAvatarsPath. rewrite M. reflexivity.
Qed.

Section D.
Variable G : gcm.
Hypothesis Gok : gcm_ok G.

Lemma firstn_key (key spare : bytes) : length key = 32%nat -> firstn 32 (key ++ spare) = key.
Proof. intros L. rewrite firstn_app, L. replace (32 - 32)%nat with O by lia. rewrite firstn_O, app_nil_r. rewrite <- L. apply firstn_all. Qed.
Lemma decrypt_posted key spare nonce img : length key = 32%nat -> length nonce = 12%nat -> decryptAvatar G (posted G key nonce img) key spare = Ok img.
Proof.
  intros K N. unfold decryptAvatar, posted.
  destruct (Nat.ltb_spec (length (nonce ++ seal G key nonce [] img)) 12) as [X|_]; [rewrite app_length in X; lia|].
  destruct (Nat.ltb_spec (length (key ++ spare)) 32) as [X|_]; [rewrite app_length in X; lia|].
  rewrite (firstn_key key spare K).
  assert (E1 : firstn 12 (nonce ++ seal G key nonce [] img) = nonce).
  { rewrite firstn_app, N. replace (12 - 12)%nat with O by lia. rewrite firstn_O, app_nil_r. rewrite <- N. apply firstn_all. }
  assert (E2 : skipn 12 (nonce ++ seal G key nonce [] img) = seal G key nonce [] img).
  { rewrite skipn_app, N. replace (12 - 12)%nat with O by lia. rewrite <- N at 1. rewrite skipn_all. reflexivity. }
  rewrite E1, E2, (gopen_seal G Gok). reflexivity.
Qed.
Lemma decrypt_only key spare body img : length key = 32%nat -> decryptAvatar G body key spare = Ok img ->
  exists nonce, length nonce = 12%nat /\ body = posted G key nonce img.
Proof.
  intros K. unfold decryptAvatar. destruct (Nat.ltb_spec (length body) 12) as [X|L]; [intros H; discriminate H|].
  destruct (Nat.ltb_spec (length (key ++ spare)) 32) as [X|_]; [intros H; discriminate H|]. rewrite (firstn_key key spare K).
  destruct (gopen G key (firstn 12 body) [] (skipn 12 body)) as [p|] eqn:E; [|intros H; discriminate H]. intros H. injection H as <-.
  exists (firstn 12 body). split; [apply firstn_length_le; exact L|]. unfold posted. rewrite <- (gopen_only G Gok _ _ _ _ _ E).
  symmetry. apply firstn_skipn.
Qed.

(* C142. An image that its owner has posted is what the contact then has, and what is in the local file ... *)
Theorem C142_image_arrives : forall o uuid spare cred plain get w cs av p nonce img,
  let c := GetContact uuid cs in
  length (p_pkey c) = 32%nat -> cred c = Ok p -> rp_uuid p = uuid -> file_name uuid -> rp_avatar p <> [] ->
  length nonce = 12%nat -> img <> [] -> get (47 :: rp_avatar p) = Some (posted G (p_pkey c) nonce img) -> works o ->
  exists cs' av' d, RefreshProfile G o uuid spare cred plain get w (cs, av) = ((cs', av'), Ok tt) /\
    lookup uuid (cs_table cs') = Some d /\ p_hasavatar d = true /\ p_avatar d = img /\ snd (GetLocalAvatar o uuid av') = Ok img.
Proof.
  intros o uuid spare cred plain get w cs av p nonce img c K C U F A N I Gt (M & Cr & Sh). unfold RefreshProfile. fold c.
  destruct (p_pkey c) as [|k0 ks] eqn:Ek; [discriminate K|]. rewrite C. unfold fetch_avatar.
  destruct (rp_avatar p) as [|n0 ns] eqn:En; [elim A; reflexivity|]. rewrite Gt. rewrite decrypt_posted by assumption.
  assert (P : exists b bs, posted G (k0 :: ks) nonce img = b :: bs).
  { unfold posted. destruct nonce as [|b bs]; [discriminate N|]. eexists _, _. reflexivity. }
  destruct P as (b & bs & P). rewrite P. unfold GetProfileUUID, WriteContactsToPath. rewrite U.
  destruct (avatar_file_ok o uuid av F M) as (s' & E & Fs & Ps).
  assert (S : fst (saveLocalAvatar o uuid img av) = mkAv (av_path s') (write (images o av ++ [uuid]) img (av_files s'))).
  { unfold saveLocalAvatar. destruct uuid as [|u0 us]; [destruct F as [F _]; elim F; reflexivity|]. destruct img as [|i0 is]; [elim I; reflexivity|].
    rewrite E, Cr, Sh. reflexivity. }
  set (x := refreshed (mkAnswer uuid (rp_name p) (rp_about p) (rp_emoji p) (Some img)) (GetContact uuid cs)).
  assert (L : snd (GetLocalAvatar o uuid (mkAv (av_path s') (write (images o av ++ [uuid]) img (av_files s')))) = Ok img).
  { unfold GetLocalAvatar. destruct (avatar_file_ok o uuid (mkAv (av_path s') (write (images o av ++ [uuid]) img (av_files s'))) F M) as (s2 & E2 & F2 & _).
    rewrite E2. cbn [snd]. rewrite F2. unfold images at 1. cbn [av_path av_files]. rewrite Ps, read_write_same. reflexivity. }
  destruct w as [order|].
  - eexists _, _, x. split; [reflexivity|]. cbn [cs_table]. split; [apply lookup_put_same|]. split; [reflexivity|]. split; [reflexivity|].
    rewrite S. exact L.
  - eexists _, _, x. split; [reflexivity|]. cbn [cs_table]. split; [apply lookup_put_same|]. split; [reflexivity|]. split; [reflexivity|].
    rewrite S. exact L.
Qed.

(* ... and an image that a refresh brings, other than an empty one, was posted under the key of the contact. *)
Theorem C142_only_posted : forall o uuid spare cred plain get w cs av cs' av' r d,
  length (p_pkey (GetContact uuid cs)) = 32%nat ->
  (forall p, cred (GetContact uuid cs) = Ok p -> rp_uuid p = uuid) ->
  RefreshProfile G o uuid spare cred plain get w (cs, av) = ((cs', av'), r) -> lookup uuid (cs_table cs') = Some d ->
  p_avatar d = p_avatar (GetContact uuid cs) \/ p_avatar d = [] \/
  exists name nonce body, get (47 :: name) = Some body /\ length nonce = 12%nat /\ body = posted G (p_pkey (GetContact uuid cs)) nonce (p_avatar d).
Proof.
  intros o uuid spare cred plain get w cs av cs' av' r d K Hon H L. unfold RefreshProfile in H. set (c := GetContact uuid cs) in *.
  assert (Keep : cs' = cs -> p_avatar d = p_avatar c).
  { intros X. rewrite X in L. unfold c, GetContact. rewrite L. reflexivity. }
  destruct (p_pkey c) as [|k0 ks] eqn:Ek; [discriminate K|].
  destruct (cred c) as [p|e|] eqn:C; [|left; apply Keep; injection H as <- _ _; reflexivity|left; apply Keep; injection H as <- _ _; reflexivity].
  specialize (Hon p eq_refl).
  assert (Step : forall av1 img, (let (cs1, r1) := GetProfileUUID uuid (fun _ => Ok (mkAnswer (rp_uuid p) (rp_name p) (rp_about p) (rp_emoji p) img)) w cs in
      (cs1, av1, r1)) = ((cs', av'), r) -> p_avatar d = match img with Some b => b | None => p_avatar c end).
  { intros av1 img E. unfold GetProfileUUID, WriteContactsToPath in E. rewrite Hon in E.
    assert (T : cs_table cs' = put uuid (refreshed (mkAnswer uuid (rp_name p) (rp_about p) (rp_emoji p) img) c) (cs_table cs))
      by (destruct w; injection E as <- _ _; reflexivity).
    rewrite T, lookup_put_same in L. injection L as <-. reflexivity. }
  destruct (fetch_avatar G o (k0 :: ks) spare p get av) as [av1 [img|e|]] eqn:Fe.
  - cbn [an_uuid] in H. specialize (Step av1 img H). unfold fetch_avatar in Fe.
    destruct (rp_avatar p) as [|n0 ns] eqn:En; [injection Fe as _ <-; left; exact Step|].
    destruct (get (47 :: n0 :: ns)) as [body|] eqn:Gt; [|injection Fe as _ <-; left; exact Step].
    destruct body as [|b0 bs]; [injection Fe as _ <-; right; left; exact Step|].
    destruct (decryptAvatar G (b0 :: bs) (k0 :: ks) spare) as [i|e|] eqn:De.
    + injection Fe as _ <-. right. right. destruct (decrypt_only _ _ _ _ K De) as (nonce & Ln & B).
      exists (n0 :: ns), nonce, (b0 :: bs). split; [exact Gt|]. split; [exact Ln|]. rewrite Step. exact B.
    + injection Fe as _ <-. left. exact Step.
    + discriminate Fe.
  - left. apply Keep. injection H as <- _ _. reflexivity.
  - left. apply Keep. injection H as <- _ _. reflexivity.
Qed.

(* C143. Refreshing crashes exactly if the fetched profile is null, if fetching it crashes, or if the answer of the image server, of
   whatever status, has between 1 and 11 bytes or the key fewer than 32. *)
Theorem C143_when_refreshing_crashes : forall o uuid spare cred plain get w s,
  let c := GetContact uuid (fst s) in
  snd (RefreshProfile G o uuid spare cred plain get w s) = Panic <->
  (p_pkey c = [] /\ (plain = Panic \/ plain = Ok None)) \/
  (p_pkey c <> [] /\ (cred c = Panic \/
     exists p body, cred c = Ok p /\ rp_avatar p <> [] /\ get (47 :: rp_avatar p) = Some body /\ body <> [] /\
       ((length body < 12)%nat \/ (length (p_pkey c ++ spare) < 32)%nat))).
Proof.
  intros o uuid spare cred plain get w [cs av] c. cbn [fst] in c. unfold RefreshProfile. fold c.
  assert (Np : forall a, snd (GetProfileUUID uuid (fun _ => Ok a) w cs) <> Panic).
  { intros a. unfold GetProfileUUID. destruct (WriteContactsToPath _ _). cbn [snd]. intros H. discriminate H. }
  assert (Np' : forall a (av1 : avstate), snd (let (cs1, r1) := GetProfileUUID uuid (fun _ => Ok a) w cs in (cs1, av1, r1)) <> Panic).
  { intros a av1. specialize (Np a). destruct (GetProfileUUID uuid (fun _ => Ok a) w cs) as [x y]. exact Np. }
  destruct (p_pkey c) as [|k0 ks] eqn:Ek.
  - split.
    + intros H. left. split; [reflexivity|]. destruct plain as [[p|]|e|]; [|right; reflexivity|discriminate H|left; reflexivity].
      exfalso. unfold fetch_avatar in H. destruct (rp_avatar p) as [|n0 ns]; [exact (Np' _ _ H)|].
      destruct (get (47 :: n0 :: ns)) as [body|]; exact (Np' _ _ H).
    + intros [[_ [H|H]]|[N _]]; [rewrite H; reflexivity|rewrite H; reflexivity|elim N; reflexivity].
  - split.
    + intros H. right. split; [intros X; discriminate X|]. destruct (cred c) as [p|e|]; [|discriminate H|left; reflexivity]. right.
      unfold fetch_avatar in H. destruct (rp_avatar p) as [|n0 ns] eqn:En; [elim (Np' _ _ H)|].
      destruct (get (47 :: n0 :: ns)) as [body|] eqn:Gt; [|elim (Np' _ _ H)].
      destruct body as [|b0 bs]; [elim (Np' _ _ H)|].
      exists p, (b0 :: bs). split; [reflexivity|]. rewrite En. split; [intros X; discriminate X|]. split; [exact Gt|]. split; [intros X; discriminate X|].
      unfold decryptAvatar in H. destruct (Nat.ltb_spec (length (b0 :: bs)) 12) as [X|_]; [left; exact X|].
      destruct (Nat.ltb_spec (length ((k0 :: ks) ++ spare)) 32) as [X|_]; [right; exact X|].
      exfalso. destruct (gopen G _ _ _ _); exact (Np' _ _ H).
    + intros [[N _]|[_ [H|(p & body & C & A & Gt & B & Sh)]]]; [discriminate N|rewrite H; reflexivity|]. rewrite C. unfold fetch_avatar.
      destruct (rp_avatar p) as [|n0 ns]; [elim A; reflexivity|]. rewrite Gt. destruct body as [|b0 bs]; [elim B; reflexivity|].
      unfold decryptAvatar. destruct (Nat.ltb_spec (length (b0 :: bs)) 12) as [X|X]; [reflexivity|].
      destruct (Nat.ltb_spec (length ((k0 :: ks) ++ spare)) 32) as [Y|Y]; [reflexivity|]. destruct Sh; lia.
Qed.
End D.
Print Assumptions C142_image_arrives.
Print Assumptions C142_only_posted.
Print Assumptions C143_when_refreshing_crashes.

(* ---- an example ---- *)
Definition ex_uuid : bytes := [97; 49; 45; 98; 50].
Definition ex_key : bytes := repeat 7 32.
Definition ex_nonce : bytes := repeat 5 12.
Definition ex_img : bytes := [137; 80; 78; 71].
Definition ex_io : io := mkIo [[104]; [117]] true (fun _ => true) None.
Definition ex_contact : person := mkPerson ex_uuid [43; 49] ex_key [65] [] true false [] [] [] [].
Definition ex_cs : cstate := mkCs [(ex_uuid, ex_contact)] [].
Definition ex_remote : remote := mkRemote ex_uuid [66] [] [] [112; 47; 120] [].
Definition ex_posted : bytes := Eval vm_compute in posted toygcm ex_key ex_nonce ex_img.
Lemma ex_file : file_name ex_uuid.
Proof.
  split; [intros H; discriminate H|]. split; [intros H; discriminate H|]. split; [intros H; discriminate H|].
  repeat (apply Forall_cons; [lia|]). apply Forall_nil.
Qed.
Example C142_example : exists s',
  RefreshProfile toygcm ex_io ex_uuid [] (fun _ => Ok ex_remote) (Err EOther) (fun _ => Some ex_posted) None (ex_cs, mkAv None []) = (s', Ok tt) /\
  read [[104]; [117]; str_avatars; ex_uuid] (av_files (snd s')) = Some ex_img /\ p_avatar (GetContact ex_uuid (fst s')) = ex_img.
Proof. eexists. split; [vm_compute; reflexivity|]. split; vm_compute; reflexivity. Qed.

(* "not found" *)
Definition ex_notfound : bytes := [110; 111; 116; 32; 102; 111; 117; 110; 100].
Theorem C143_never_crashes_refuted : exists G, gcm_ok G /\ exists o uuid cred plain get w s p,
  works o /\ length (p_pkey (GetContact uuid (fst s))) = 32%nat /\ cred (GetContact uuid (fst s)) = Ok p /\ rp_uuid p = uuid /\
  snd (RefreshProfile G o uuid [] cred plain get w s) = Panic.
Proof.
  exists toygcm. split; [exact toygcm_ok|].
  exists ex_io, ex_uuid, (fun _ => Ok ex_remote), (Err EOther), (fun _ => Some ex_notfound), None, (ex_cs, mkAv None []), ex_remote.
  split; [split; [reflexivity|]; split; [intros p; reflexivity|reflexivity]|]. repeat (split; [reflexivity|]). vm_compute. reflexivity.
Qed.
Print Assumptions C143_never_crashes_refuted.

(* C144. If a UUID can be the name of a file, saving its image leaves every other file alone, and in particular those of other UUIDs ... *)
Theorem C144_others_untouched : forall o u a s s' r, file_name u -> saveLocalAvatar o u a s = (s', r) ->
  (forall q, q <> images o s ++ [u] -> read q (av_files s') = read q (av_files s)) /\
  (forall v, file_name v -> v <> u -> io_mkdir o = true -> snd (GetLocalAvatar o v s') = snd (GetLocalAvatar o v s)).
Proof.
  intros o u a s s' r F H. assert (E : s' = fst (saveLocalAvatar o u a s)) by (rewrite H; reflexivity). split.
  - intros q N. rewrite E. apply save_files; assumption.
  - intros v Fv N M.
    assert (P : images o s' = images o s).
    { rewrite E. unfold saveLocalAvatar. destruct u as [|c u]; [reflexivity|]. destruct a as [|x a]; [reflexivity|].
      destruct (avatar_file_ok o (c :: u) s F M) as (s1 & E1 & _ & P1). rewrite E1.
      assert (Q : forall s2, av_path s2 = Some (images o s) -> images o s2 = images o s) by (intros s2 X; unfold images at 1; rewrite X; reflexivity).
      destruct (io_create o _); [|cbn [fst]; apply Q; exact P1]. destruct (io_short o); cbn [fst]; apply Q; exact P1. }
    unfold GetLocalAvatar. destruct (avatar_file_ok o v s' Fv M) as (s1 & E1 & F1 & _). destruct (avatar_file_ok o v s Fv M) as (s2 & E2 & F2 & _).
    rewrite E1, E2. cbn [snd]. rewrite F1, F2, P, E. rewrite save_files; [reflexivity|exact F|].
    intros X. apply app_inj_tail in X. destruct X as [_ X]. exact (N X).
Qed.
Print Assumptions C144_others_untouched.
(* ... and what was saved is what is read. *)
Theorem C144_saved_is_read : forall o u a s s', file_name u -> saveLocalAvatar o u a s = (s', Ok tt) -> io_mkdir o = true ->
  snd (GetLocalAvatar o u s') = Ok a /\ exists t, GetLocalAvatarPath o u s' = (t, Ok (images o s ++ [u])).
Proof.
  intros o u a s s' F H M. unfold saveLocalAvatar in H. destruct u as [|c u]; [discriminate H|]. destruct a as [|x a]; [discriminate H|].
  destruct (avatar_file_ok o (c :: u) s F M) as (s1 & E1 & F1 & P1). rewrite E1 in H. destruct (io_create o _); [|discriminate H].
  destruct (io_short o); [discriminate H|]. injection H as H.
  assert (P2 : av_path s' = Some (images o s)) by (rewrite <- H; exact P1).
  assert (R : read (images o s ++ [c :: u]) (av_files s') = Some (x :: a)) by (rewrite <- H; apply read_write_same).
  assert (I : images o s' = images o s) by (unfold images at 1; rewrite P2; reflexivity).
  destruct (avatar_file_ok o (c :: u) s' F M) as (s2 & E2 & F2 & _). rewrite I in E2. split.
  - unfold GetLocalAvatar. rewrite E2. cbn [snd]. rewrite F2. replace (read _ (av_files s')) with (Some (x :: a)) by (symmetry; exact R). reflexivity.
  - exists s2. exact E2.
Qed.
Print Assumptions C144_saved_is_read.
(* But the UUID is what the server says it is: "../identity/identity_key" *)
Definition str_identity : bytes := [105; 100; 101; 110; 116; 105; 116; 121].
Definition str_identity_key : bytes := [105; 100; 101; 110; 116; 105; 116; 121; 95; 107; 101; 121].
Definition ex_escape : bytes := [46; 46; 47] ++ str_identity ++ [47] ++ str_identity_key.
(* with that name the identity key in the storage directory is overwritten, wherever that directory is *)
Theorem C144_identity_key_overwritten : forall o a s, works o -> a <> [] -> av_path s = None ->
  exists s', saveLocalAvatar o ex_escape a s = (s', Ok tt) /\ read (io_storage o ++ [str_identity; str_identity_key]) (av_files s') = Some a.
Proof.
  intros o a s (M & C & Sh) N P. unfold saveLocalAvatar. destruct a as [|x a]; [elim N; reflexivity|].
  assert (J : Join (Join (io_storage o) str_avatars) ex_escape = io_storage o ++ [str_identity; str_identity_key]).
  { rewrite (join_plain _ _ avatars_name). unfold Join.
    change (parts ex_escape) with [[46; 46]; str_identity; str_identity_key]. cbn [fold_left].
    change (clean_part (io_storage o ++ [str_avatars]) [46; 46]) with (removelast (io_storage o ++ [str_avatars])).
    rewrite removelast_last. unfold clean_part. change (beq str_identity [] || beq str_identity [46]) with false.
    change (beq str_identity [46; 46]) with false. change (beq str_identity_key [] || beq str_identity_key [46]) with false.
    change (beq str_identity_key [46; 46]) with false. cbv iota. rewrite <- app_assoc. reflexivity. }
  assert (E : avatar_file o ex_escape s = (mkAv (Some (Join (io_storage o) str_avatars)) (av_files s), Ok (io_storage o ++ [str_identity; str_identity_key]))).
  { rewrite <- J. unfold avatar_file. change ex_escape with (46 :: (46 :: 47 :: str_identity ++ [47] ++ str_identity_key)) at 1.
    rewrite P. unfold setupAvatarsPath. rewrite M. reflexivity. }
  change ex_escape with (46 :: (46 :: 47 :: str_identity ++ [47] ++ str_identity_key)) at 1. cbv iota. rewrite E, C, Sh. eexists. split; [reflexivity|].
  cbn [av_files]. apply read_write_same.
Qed.
Print Assumptions C144_identity_key_overwritten.
Definition ex_escaping : remote := mkRemote ex_escape [66] [] [] [112] [].
Theorem C144_kept_apart_refuted : exists G, gcm_ok G /\ exists o uuid cred get s s' old img,
  works o /\ file_name uuid /\ RefreshProfile G o uuid [] cred (Err EOther) get None s = (s', Ok tt) /\
  read (io_storage o ++ [str_identity; str_identity_key]) (av_files (snd s)) = Some old /\
  read (io_storage o ++ [str_identity; str_identity_key]) (av_files (snd s')) = Some img /\ img <> old.
Proof.
  exists toygcm. split; [exact toygcm_ok|].
  exists ex_io, ex_uuid, (fun _ => Ok ex_escaping), (fun _ => Some ex_posted), (ex_cs, mkAv None [([[104]; [117]; str_identity; str_identity_key], [1; 2; 3])]).
  eexists. exists [1; 2; 3], ex_img. split; [split; [reflexivity|]; split; [intros p; reflexivity|reflexivity]|]. split; [exact ex_file|].
  split; [vm_compute; reflexivity|]. split; [vm_compute; reflexivity|]. split; [vm_compute; reflexivity|]. apply beq_neq. vm_compute. reflexivity.
Qed.
Print Assumptions C144_kept_apart_refuted.

(* C145. A contact that is said to have an image has one, after a refresh for which the image server gave
   no empty answer and no empty image. *)
Definition consistent (c : person) : Prop := p_hasavatar c = true -> p_avatar c <> [].
Theorem C145_image_there_partial : forall G, gcm_ok G -> forall o uuid spare cred plain get w cs av s' r,
  (forall p, cred (GetContact uuid cs) = Ok p -> rp_uuid p = uuid) -> (forall p, plain = Ok (Some p) -> rp_uuid p = uuid) ->
  (p_pkey (GetContact uuid cs) = [] \/ length (p_pkey (GetContact uuid cs)) = 32%nat) ->
  (forall n, get n <> Some []) -> (forall n nonce, get n <> Some (posted G (p_pkey (GetContact uuid cs)) nonce [])) ->
  (forall k c, lookup k (cs_table cs) = Some c -> consistent c) ->
  RefreshProfile G o uuid spare cred plain get w (cs, av) = (s', r) ->
  forall k c, lookup k (cs_table (fst s')) = Some c -> consistent c.
Proof.
  intros G Gok o uuid spare cred plain get w cs av s' r Hc Hp Hk Hg Hd Hs H k c L. unfold RefreshProfile in H. set (x := GetContact uuid cs) in *.
  set (f := match p_pkey x with [] => plain | _ => match cred x with Ok p => Ok (Some p) | Err e => Err e | Panic => Panic end end) in H.
  assert (Hf : forall p, f = Ok (Some p) -> rp_uuid p = uuid).
  { intros p E. unfold f in E. destruct (p_pkey x); [apply Hp; exact E|]. destruct (cred x) as [q|e|]; [|discriminate E|discriminate E].
    injection E as <-. apply Hc. reflexivity. }
  assert (Cx : consistent x).
  { unfold x, GetContact. destruct (lookup uuid (cs_table cs)) as [y|] eqn:E; [apply (Hs uuid); exact E|]. intros X. discriminate X. }
  assert (Keep : fst s' = cs -> consistent c) by (intros X; rewrite X in L; apply (Hs k); exact L).
  destruct f as [[p|]|e|] eqn:Ef; [|apply Keep; injection H as <- _; reflexivity|apply Keep; injection H as <- _; reflexivity|apply Keep; injection H as <- _; reflexivity].
  specialize (Hf p eq_refl).
  destruct (fetch_avatar G o (p_pkey x) spare p get av) as [av1 [img|e|]] eqn:Fe;
    [|apply Keep; injection H as <- _; reflexivity|apply Keep; injection H as <- _; reflexivity].
  unfold GetProfileUUID, WriteContactsToPath in H. rewrite Hf in H. fold x in H.
  assert (T : cs_table (fst s') = put uuid (refreshed (mkAnswer uuid (rp_name p) (rp_about p) (rp_emoji p) img) x) (cs_table cs))
    by (destruct w; injection H as <- _; reflexivity).
  rewrite T, lookup_put in L. destruct (beq k uuid); [|apply (Hs k); exact L]. injection L as <-. unfold consistent, refreshed.
  cbn [p_hasavatar p_avatar an_avatar]. destruct img as [i|]; [|exact Cx]. intros _ I. rewrite I in Fe. unfold fetch_avatar in Fe.
  destruct (rp_avatar p) as [|n0 ns]; [discriminate Fe|]. destruct (get (47 :: n0 :: ns)) as [body|] eqn:Gt; [|discriminate Fe].
  destruct (p_pkey x) as [|k0 ks] eqn:Ek; [discriminate Fe|]. destruct body as [|b0 bs]; [elim (Hg _ Gt)|].
  destruct (decryptAvatar G (b0 :: bs) (k0 :: ks) spare) as [j|e|] eqn:De; [|discriminate Fe|discriminate Fe].
  injection Fe as _ E. rewrite E in De.
  destruct Hk as [Hk|Hk]; [discriminate Hk|]. destruct (decrypt_only G Gok _ _ _ _ Hk De) as (nonce & _ & B). rewrite B in Gt. exact (Hd _ _ Gt).
Qed.
Print Assumptions C145_image_there_partial.
Theorem C145_image_there_refuted : exists G, gcm_ok G /\ exists o uuid cred get s s',
  works o /\ RefreshProfile G o uuid [] cred (Err EOther) get None s = (s', Ok tt) /\ consistent (GetContact uuid (fst s)) /\
  p_hasavatar (GetContact uuid (fst s')) = true /\ p_avatar (GetContact uuid (fst s')) = [].
Proof.
  exists toygcm. split; [exact toygcm_ok|]. exists ex_io, ex_uuid, (fun _ => Ok ex_remote), (fun _ => Some []), (ex_cs, mkAv None []). eexists.
  split; [split; [reflexivity|]; split; [intros p; reflexivity|reflexivity]|]. split; [vm_compute; reflexivity|].
  split; [intros H; vm_compute in H; discriminate H|]. split; vm_compute; reflexivity.
Qed.
Print Assumptions C145_image_there_refuted.
(* An image that cannot be decrypted takes nothing away: the old one stays, in the table and on the disk. *)
Theorem C145_bad_image_ignored : forall G o key spare p get body e s, get (47 :: rp_avatar p) = Some body -> body <> [] -> key <> [] ->
  decryptAvatar G body key spare = Err e -> fetch_avatar G o key spare p get s = (s, Ok None).
Proof.
  intros G o key spare p get body e s Gt B K D. unfold fetch_avatar. destruct (rp_avatar p) as [|n0 ns]; [reflexivity|]. rewrite Gt.
  destruct key as [|k0 ks]; [reflexivity|]. destruct body as [|b0 bs]; [elim B; reflexivity|]. rewrite D. f_equal.
  unfold saveLocalAvatar. destruct (rp_uuid p); reflexivity.
Qed.
Print Assumptions C145_bad_image_ignored.

(* C146. Whatever the profile, a refresh never takes an image away. *)
Theorem C146_never_taken_away : forall G o uuid spare cred plain get w cs av cs' av' r d,
  (forall p, cred (GetContact uuid cs) = Ok p -> rp_uuid p = uuid /\ rp_avatar p = []) ->
  (forall p, plain = Ok (Some p) -> rp_uuid p = uuid /\ rp_avatar p = []) ->
  RefreshProfile G o uuid spare cred plain get w (cs, av) = ((cs', av'), r) -> lookup uuid (cs_table cs') = Some d ->
  p_hasavatar d = p_hasavatar (GetContact uuid cs) /\ p_avatar d = p_avatar (GetContact uuid cs) /\ av' = av.
Proof.
  intros G o uuid spare cred plain get w cs av cs' av' r d Hc Hp H L. unfold RefreshProfile in H. set (x := GetContact uuid cs) in *.
  set (f := match p_pkey x with [] => plain | _ => match cred x with Ok p => Ok (Some p) | Err e => Err e | Panic => Panic end end) in H.
  assert (Hf : forall p, f = Ok (Some p) -> rp_uuid p = uuid /\ rp_avatar p = []).
  { intros p E. unfold f in E. destruct (p_pkey x); [apply Hp; exact E|]. destruct (cred x) as [q|e|]; [|discriminate E|discriminate E].
    injection E as <-. apply Hc. reflexivity. }
  assert (Keep : cs' = cs -> d = x) by (intros X; rewrite X in L; unfold x, GetContact; rewrite L; reflexivity).
  destruct f as [[p|]|e|] eqn:Ef; try (injection H as H1 H2 _; rewrite (Keep (eq_sym H1)), <- H2; split; [reflexivity|]; split; reflexivity).
  destruct (Hf p eq_refl) as [U A]. unfold fetch_avatar in H. rewrite A, U in H. unfold GetProfileUUID, WriteContactsToPath in H. cbn [an_uuid] in H. fold x in H.
  assert (T : cs_table cs' = put uuid (refreshed (mkAnswer uuid (rp_name p) (rp_about p) (rp_emoji p) None) x) (cs_table cs) /\ av' = av)
    by (destruct w; injection H as <- <- _; split; reflexivity).
  destruct T as [T ->]. rewrite T, lookup_put_same in L. injection L as <-. split; [reflexivity|]. split; reflexivity.
Qed.
Print Assumptions C146_never_taken_away.
Theorem C146_taken_away_is_gone_refuted : exists G, gcm_ok G /\ exists o uuid cred get s s' p,
  works o /\ cred (GetContact uuid (fst s)) = Ok p /\ rp_uuid p = uuid /\ rp_avatar p = [] /\
  RefreshProfile G o uuid [] cred (Err EOther) get None s = (s', Ok tt) /\ p_hasavatar (GetContact uuid (fst s')) = true.
Proof.
  exists toygcm. split; [exact toygcm_ok|].
  exists ex_io, ex_uuid, (fun _ => Ok (mkRemote ex_uuid [66] [] [] [] [])), (fun _ => None),
    (mkCs [(ex_uuid, mkPerson ex_uuid [43; 49] ex_key [65] [] true true ex_img [] [] [])] [], mkAv None []).
  eexists. exists (mkRemote ex_uuid [66] [] [] [] []). split; [split; [reflexivity|]; split; [intros p; reflexivity|reflexivity]|].
  split; [reflexivity|]. split; [reflexivity|]. split; [reflexivity|]. split; vm_compute; reflexivity.
Qed.
Print Assumptions C146_taken_away_is_gone_refuted.

(* C147. Asking for a profile by number crashes exactly if there is no answer or a null one, no image, no answer of the image server
   or one of fewer than 12 bytes, or if the text of the identity key has fewer than 32. *)
Theorem C147_when_it_crashes : forall G o answer get spare w s,
  snd (GetProfileE164 G o answer get spare w s) = Panic <->
  ~ (exists p body, answer = Some (Some p) /\ rp_avatar p <> [] /\ get (rp_avatar p) = Some body /\ (12 <= length body)%nat /\
       (32 <= length (rp_identity p ++ spare))%nat).
Proof.
  intros G o answer get spare w [cs av]. unfold GetProfileE164. split.
  - intros H (p & body & -> & A & Gt & B & K). destruct (rp_avatar p) as [|n0 ns]; [elim A; reflexivity|]. rewrite Gt in H. unfold decryptAvatar in H.
    destruct (Nat.ltb_spec (length body) 12) as [X|_]; [lia|]. destruct (Nat.ltb_spec (length (rp_identity p ++ spare)) 32) as [X|_]; [lia|].
    destruct (gopen G _ _ _ _); destruct (WriteContactsToPath _ _); discriminate H.
  - intros N. destruct answer as [[p|]|]; [|reflexivity|reflexivity]. destruct (rp_avatar p) as [|n0 ns] eqn:En; [reflexivity|].
    destruct (get (n0 :: ns)) as [body|] eqn:Gt; [|reflexivity]. unfold decryptAvatar.
    destruct (Nat.ltb_spec (length body) 12) as [X|L]; [reflexivity|]. destruct (Nat.ltb_spec (length (rp_identity p ++ spare)) 32) as [X|K]; [reflexivity|].
    exfalso. apply N. exists p, body. split; [reflexivity|]. rewrite En. split; [intros Z; discriminate Z|]. split; [exact Gt|]. split; assumption.
Qed.
Print Assumptions C147_when_it_crashes.
(* In particular it crashes for every profile without an image; and every contact it returns is said to have one. *)
Theorem C147_no_image_is_a_crash : forall G o p get spare w s, rp_avatar p = [] -> snd (GetProfileE164 G o (Some (Some p)) get spare w s) = Panic.
Proof. intros G o p get spare w s A. apply C147_when_it_crashes. intros (q & body & E & N & _). injection E as <-. exact (N A). Qed.
Print Assumptions C147_no_image_is_a_crash.
(* What the contact is made of: the server's id and name, the image, and everything else as the table had it under that id. *)
Theorem C147_what_is_kept : forall G o p get spare w s s' c, GetProfileE164 G o (Some (Some p)) get spare w s = (s', Ok c) ->
  let old := GetContact (rp_uuid p) (fst s) in
  p_uuid c = rp_uuid p /\ p_name c = rp_name p /\ p_tel c = p_tel old /\ p_pkey c = p_pkey old /\ p_username c = p_username old /\
  p_registered c = p_registered old /\ p_about c = p_about old /\ p_emoji c = p_emoji old /\ p_rest c = p_rest old /\
  forall k, k <> rp_uuid p -> lookup k (cs_table (fst s')) = lookup k (cs_table (fst s)).
Proof.
  intros G o p get spare w [cs av] s' c H. unfold GetProfileE164 in H. cbn [fst]. cbv zeta.
  destruct (match rp_avatar p with [] => None | _ => _ end) as [body|]; [|discriminate H].
  assert (X : forall img av', (let (cs', _) := WriteContactsToPath w (mkCs (put (rp_uuid p) (by_number p img (GetContact (rp_uuid p) cs)) (cs_table cs)) (cs_file cs)) in
      (cs', av', Ok (by_number p img (GetContact (rp_uuid p) cs)))) = (s', Ok c) ->
      c = by_number p img (GetContact (rp_uuid p) cs) /\ cs_table (fst s') = put (rp_uuid p) c (cs_table cs)).
  { intros img av' E. unfold WriteContactsToPath in E. destruct w; injection E as <- <-; split; reflexivity. }
  assert (Y : exists img, c = by_number p img (GetContact (rp_uuid p) cs) /\ cs_table (fst s') = put (rp_uuid p) c (cs_table cs)).
  { destruct (decryptAvatar G body (rp_identity p) spare); [eexists; apply (X _ _ H)|eexists; apply (X _ _ H)|discriminate H]. }
  destruct Y as (img & E & T). subst c. do 9 (split; [reflexivity|]). intros k Hk. rewrite T. now apply lookup_put_other.
Qed.
Print Assumptions C147_what_is_kept.
Theorem C147_always_said_to_have_one : forall G o answer get spare w s s' c, GetProfileE164 G o answer get spare w s = (s', Ok c) ->
  p_hasavatar c = true /\ lookup (p_uuid c) (cs_table (fst s')) = Some c.
Proof.
  intros G o answer get spare w [cs av] s' c H. unfold GetProfileE164 in H. destruct answer as [[p|]|]; [|discriminate H|discriminate H].
  destruct (match rp_avatar p with [] => None | _ => _ end) as [body|]; [|discriminate H].
  assert (X : forall img av', (let (cs', _) := WriteContactsToPath w (mkCs (put (rp_uuid p) (by_number p img (GetContact (rp_uuid p) cs)) (cs_table cs)) (cs_file cs)) in
      (cs', av', Ok (by_number p img (GetContact (rp_uuid p) cs)))) = (s', Ok c) -> p_hasavatar c = true /\ lookup (p_uuid c) (cs_table (fst s')) = Some c).
  { intros img av' E. unfold WriteContactsToPath in E. destruct w; injection E as <- <-; (split; [reflexivity|]);
      cbn [fst cs_table p_uuid by_number]; apply lookup_put_same. }
  destruct (decryptAvatar G body (rp_identity p) spare); [apply (X _ _ H)|apply (X _ _ H)|discriminate H].
Qed.
Print Assumptions C147_always_said_to_have_one.
(* The key it decrypts with is the text of the public identity key, so the image its owner has posted is lost - in the table too,
   where the contact had it. The text here is 44 characters of base64. *)
Definition ex_identity_text : bytes := repeat 66 44.
Theorem C147_profile_by_number_refuted : exists G, gcm_ok G /\ exists o p get s s' c uuid nonce,
  works o /\ rp_uuid p = uuid /\ length nonce = 12%nat /\ length (p_pkey (GetContact uuid (fst s))) = 32%nat /\
  get (rp_avatar p) = Some (posted G (p_pkey (GetContact uuid (fst s))) nonce ex_img) /\ p_avatar (GetContact uuid (fst s)) = ex_img /\
  GetProfileE164 G o (Some (Some p)) get [] None s = (s', Ok c) /\ p_hasavatar c = true /\ p_avatar c = [].
Proof.
  exists toygcm. split; [exact toygcm_ok|].
  exists ex_io, (mkRemote ex_uuid [66] [] [] [112] ex_identity_text), (fun _ => Some ex_posted),
    (mkCs [(ex_uuid, mkPerson ex_uuid [43; 49] ex_key [65] [] true true ex_img [] [] [])] [], mkAv None []).
  eexists _, _, ex_uuid, ex_nonce. split; [split; [reflexivity|]; split; [intros p; reflexivity|reflexivity]|].
  split; [reflexivity|]. split; [reflexivity|]. split; [vm_compute; reflexivity|]. split; [vm_compute; reflexivity|]. split; [vm_compute; reflexivity|].
  split; [vm_compute; reflexivity|]. split; reflexivity.
Qed.
Print Assumptions C147_profile_by_number_refuted.
