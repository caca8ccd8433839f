(* Requests: their address, their headers and the connections they are made on. Model of /repo/transport/transport.go and
   /repo/transport/credentials.go. A header is set under its canonical name. *)
From Coq Require Import ZArith List Lia Bool.
From Verif Require Import Bytes Res Encodings.
Import ListNotations.
Open Scope Z_scope.

(* httpTransporter (89-96); the client is described by what its TLS configuration says (120-129) *)
Record tls := mkTls { t_roots : list bytes; t_skip : bool }.
Record transporter := mkTransporter { t_base : bytes; t_user : bytes; t_pass : bytes; t_proxy : bytes; t_agent : bytes; t_tls : tls }.

(* newHTTPTransporter (119-132): the fields are given by position *)
Definition newHTTPTransporter (baseURL user pass userAgent proxyServer : bytes) (rootCA : list bytes) : transporter :=
  mkTransporter baseURL user pass userAgent proxyServer (mkTls rootCA true).

Inductive header := Agent | Authorization | AccessKey | ContentType | ContentLength | Cookie | Named (n : bytes).
Definition header_eqb (a b : header) : bool :=
  match a, b with
  | Agent, Agent | Authorization, Authorization | AccessKey, AccessKey | ContentType, ContentType | ContentLength, ContentLength
  | Cookie, Cookie => true
  | Named x, Named y => beq x y
  | _, _ => false
  end.
Definition headers := list (header * bytes).
(* Header.Set and Header.Add *)
Definition hset (h : header) (v : bytes) (l : headers) : headers := filter (fun e => negb (header_eqb (fst e) h)) l ++ [(h, v)].
Definition hadd (h : header) (v : bytes) (l : headers) : headers := l ++ [(h, v)].

Inductive verb := GET | DELETE | POST | PUT | PATCH.
Record request := mkReq { r_verb : verb; r_url : bytes; r_headers : headers; r_body : bytes }.

(* "Basic " and the base64 of user, colon and password (SetBasicAuth of net/http) *)
Definition str_basic : bytes := [66; 97; 115; 105; 99; 32].
Definition basicAuth (user pass : bytes) : bytes := str_basic ++ enc64 (user ++ [58] ++ pass).

Definition set_agent (t : transporter) (l : headers) : headers :=
  match t_agent t with [] => l | a => hset Agent a l end.

(* Get (134-156) *)
Definition Get (t : transporter) (url : bytes) : request :=
  mkReq GET (t_base t ++ url) (hset Authorization (basicAuth (t_user t) (t_pass t)) (set_agent t [])) [].
(* GetWithAuth (157-179) *)
Definition GetWithAuth (t : transporter) (url auth : bytes) : request :=
  mkReq GET (t_base t ++ url) (hset Authorization auth (set_agent t [])) [].
(* Del (180-202) *)
Definition Del (t : transporter) (url : bytes) : request :=
  mkReq DELETE (t_base t ++ url) (hset Authorization (basicAuth (t_user t) (t_pass t)) (set_agent t [])) [].
(* PostWithHeaders (204-233), with the text of the length of the body *)
Definition PostWithHeaders (t : transporter) (url body ct len : bytes) (hs : headers) : request :=
  mkReq POST (t_base t ++ url)
    (hset Authorization (basicAuth (t_user t) (t_pass t))
      (hadd ContentLength len (hadd ContentType ct (set_agent t (fold_left (fun l e => hset (fst e) (snd e) l) hs []))))) body.
(* Put (235-259) *)
Definition Put (t : transporter) (url body ct : bytes) : request :=
  mkReq PUT (t_base t ++ url) (hset Authorization (basicAuth (t_user t) (t_pass t)) (hadd ContentType ct (set_agent t []))) body.
(* PutWithAuth (260-287) and PatchWithAuth (384-410) *)
Definition PutWithAuth (t : transporter) (url body ct auth : bytes) : request :=
  mkReq PUT (t_base t ++ url) (hset Authorization auth (hadd ContentType ct (set_agent t []))) body.
Definition PatchWithAuth (t : transporter) (url body ct auth : bytes) : request :=
  mkReq PATCH (t_base t ++ url) (hset Authorization auth (hadd ContentType ct (set_agent t []))) body.
(* GetWithUnidentifiedAccessKey (288-310) *)
Definition GetWithUnidentifiedAccessKey (t : transporter) (url key : bytes) : request :=
  mkReq GET (t_base t ++ url) (hset AccessKey (enc64 key) (set_agent t [])) [].
(* PutWithUnidentifiedSender (311-339) *)
Definition PutWithUnidentifiedSender (t : transporter) (url body ct key : bytes) : request :=
  mkReq PUT (t_base t ++ url) (hset AccessKey (Base64EncWithoutPadding key) (hadd ContentType ct (set_agent t []))) body.
(* PutWithAuthCookies (340-368) *)
Definition PutWithAuthCookies (t : transporter) (url body ct auth cookies : bytes) : request :=
  mkReq PUT (t_base t ++ url) (hset Authorization auth (hadd ContentType ct (hadd Cookie cookies (set_agent t [])))) body.

(* The request for the image of a profile: GetRemoteAvatar (/repo/profiles/avatars.go 26-39) makes none for an empty name; it is
   given the name as the server wrote it by GetProfileE164 (/repo/profiles/profile.go 360) and the name after a slash by
   GetProfileUUID (410); the transport is the one set up for the CDN *)
Definition GetRemoteAvatar (cdn : transporter) (avatarURL : bytes) : option request :=
  match avatarURL with [] => None | _ => Some (Get cdn avatarURL) end.
Definition avatar_by_number (cdn : transporter) (avatar : bytes) : option request := GetRemoteAvatar cdn avatar.
Definition avatar_by_uuid (cdn : transporter) (avatar : bytes) : option request := GetRemoteAvatar cdn (47 :: avatar).

(* ---- credentials.go ---- *)
Record credentials := mkCred { cr_user : bytes; cr_pass : bytes }.

(* charmap.Windows1250 of golang.org/x/text: the characters of the bytes from 128. Its table follows the WHATWG index of
   windows-1250, in which the five bytes that Windows leaves open (129, 131, 136, 144, 152) are the control characters of
   the same number *)
Definition windows1250 : list Z := [
    8364; 129; 8218; 131; 8222; 8230; 8224; 8225; 136; 8240; 352; 8249; 346; 356; 381; 377; 144; 8216; 8217; 8220;
    8221; 8226; 8211; 8212; 152; 8482; 353; 8250; 347; 357; 382; 378; 160; 711; 728; 321; 164; 260; 166; 167; 168;
    169; 350; 171; 172; 173; 174; 379; 176; 177; 731; 322; 180; 181; 182; 183; 184; 261; 351; 187; 317; 733; 318;
    380; 340; 193; 194; 258; 196; 313; 262; 199; 268; 201; 280; 203; 282; 205; 206; 270; 272; 323; 327; 211; 212;
    336; 214; 215; 344; 366; 218; 368; 220; 221; 354; 223; 341; 225; 226; 259; 228; 314; 263; 231; 269; 233; 281;
    235; 283; 237; 238; 271; 273; 324; 328; 243; 244; 337; 246; 247; 345; 367; 250; 369; 252; 253; 355; 729].
(* UTF-8 of the characters that occur *)
Definition utf8 (c : Z) : bytes :=
  if c <? 128 then [c]
  else if c <? 2048 then [192 + c / 64; 128 + c mod 64]
  else [224 + c / 4096; 128 + c / 64 mod 64; 128 + c mod 64].
Definition dec1250 (b : Z) : bytes := utf8 (if b <? 128 then b else nth (Z.to_nat (b - 128)) windows1250 65533).

(* AsBasic (20-26) *)
Definition AsBasic (c : credentials) : bytes := str_basic ++ enc64 (flat_map dec1250 (cr_user c ++ [58] ++ cr_pass c)).

(* GetCredendtails (28-42): None is an error of the transport; otherwise the status, which is not looked at, and the fields the
   decoder found before it stopped or was done; its error is not looked at either *)
Definition GetCredendtails (r : option (Z * (option bytes * option bytes))) : res credentials :=
  match r with
  | None => Err EOther
  | Some (_, (u, p)) => Ok (mkCred (match u with Some x => x | None => [] end) (match p with Some x => x | None => [] end))
  end.
