(* Uploading attachments: /repo/attachments.go 40-93, 178-231. Downloading is handleSingleAttachment in
   Receiving.v. SHA-256, the random key and initialisation vector and the answers of the servers are
   arguments. *)
From Coq Require Import ZArith List Lia Bool.
From Verif Require Import Bytes Res Wire Crypto Cbc Messages Session Builder RecordCodec Content Encodings Decimal Sending.
Import ListNotations.
Open Scope Z_scope.

(* strings.Split(s, "/") *)
Fixpoint split_slash (l : bytes) : list bytes :=
  match l with
  | [] => [[]]
  | c :: t => if c =? 47 then [] :: split_slash t
              else match split_slash t with [] => [[c]] | h :: r => (c :: h) :: r end
  end.
(* strings.Join(parts, "/") *)
Fixpoint join_slash (l : list bytes) : bytes :=
  match l with
  | [] => []
  | [p] => p
  | p :: t => p ++ 47 :: join_slash t
  end.
(* relativePath (192-195): parts[3:] panics if there are fewer than three parts *)
Definition relativePath (url : bytes) : res bytes :=
  let parts := split_slash url in
  if (length parts <? 3)%nat then Panic else Ok (47 :: join_slash (skipn 3 parts)).

(* attachmentV3UploadAttributes (/repo/server.go 721-727): cdn, key, signedUploadLocation; the headers are
   passed on and left out here *)
Record upattrs := mkUp { ua_cdn : Z; ua_key : bytes; ua_loc : bytes }.
(* the answers: to the GET of the form, after JSON decoding; to the POST of the allocation, given the
   path, the Location header (empty if there is none); to the PUT of the body *)
Record upserver := mkUs {
  us_form : res upattrs;
  us_post : bytes -> res bytes;
  us_put : bytes -> bytes -> res unit }.

(* allocateAttachmentV3 (201-220) *)
Definition allocateAttachmentV3 (sv : upserver) : res (bytes * upattrs) :=
  let* a := us_form sv in
  let* p := relativePath (ua_loc a) in
  let* l := us_post sv p in
  let* r := relativePath l in
  Ok (r, a).

Section A.
Variable C : crypto.
Variable sha256 : bytes -> bytes.

(* putAttachmentV3 (41-53) *)
Definition putAttachmentV3 (sv : upserver) (url body : bytes) : res bytes :=
  let* _ := us_put sv url body in Ok (sha256 body).

(* uploadAttachmentV3 (61-89): the pointer, and what was put where *)
Definition uploadAttachmentV3 (sv : upserver) (keys iv : bytes) (b ct : bytes) (voice : bool) : res (pointer * (bytes * bytes)) :=
  let* e := aesEncrypt C (firstn 32 keys) iv b in
  let m := appendMAC C (skipn 32 keys) e in
  let* (loc, a) := allocateAttachmentV3 sv in
  let* d := putAttachmentV3 sv loc m in
  Ok (mkPtr (ua_key a) (ua_cdn a) ct keys d (zlen b mod 2 ^ 32) voice, (loc, m)).
End A.

(* getAttachmentLocation (222-231) and /repo/server.go 40-41, 61-63:
   "https://cdn.signal.org", "https://cdn2.signal.org", "/attachments/%d", "/attachments/%s" *)
Definition cdn_url : bytes := [104;116;116;112;115;58;47;47;99;100;110;46;115;105;103;110;97;108;46;111;114;103].
Definition cdn2_url : bytes := [104;116;116;112;115;58;47;47;99;100;110;50;46;115;105;103;110;97;108;46;111;114;103].
Definition att_path : bytes := [47;97;116;116;97;99;104;109;101;110;116;115;47].
Definition getAttachmentLocation (id : Z) (key : bytes) (cdn : Z) : bytes :=
  (if cdn =? 2 then cdn2_url else cdn_url) ++ att_path ++ (if id =? 0 then key else udec id).
(* line 99: the getters of the pointer; absent fields are 0 and "" *)
Definition attachment_location (a : attptr) : bytes :=
  getAttachmentLocation (match ap_id a with Some (inl i) => i | _ => 0 end)
    (match ap_id a with Some (inr k) => k | _ => [] end) (match ap_cdn a with Some c => c | None => 0 end).
