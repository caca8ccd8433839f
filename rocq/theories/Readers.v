(* How the content of an attachment is read: /repo/textsecure.go 144-183 (MIMETypeFromReader, SendAttachment,
   SendVoiceNote), /repo/groups.go 312-330 (SendGroupAttachment, SendGroupVoiceNote), and the reading in
   uploadAttachmentV3 (/repo/attachments.go 61-69). What the functions of the standard library do is stated
   for every size of buffer that they may choose: io.CopyN (LimitReader, bytes.Buffer.ReadFrom),
   io.MultiReader, io.ReadAll. *)
From Coq Require Import String Ascii ZArith List Lia Bool.
From Verif Require Import Bytes Res Crypto Content Encodings Sending Attachments.
Import ListNotations.
Open Scope Z_scope.

(* what Read of an io.Reader reports besides the bytes: io.EOF or some other error; None is nil *)
Inductive rerr := Eof | Failed (code : Z).

Section R.
Variable St : Type.
(* Read with a buffer of the given size *)
Variable read : St -> nat -> bytes * option rerr * St.

(* io.CopyN(&buf, r, lim): Read is called with buffers of at most what is left of lim, until lim bytes are
   there or there is an error. The result of CopyN is ignored (textsecure.go 147). *)
Inductive copyN : nat -> St -> bytes -> St -> Prop :=
| copy_full s : copyN 0 s [] s
| copy_more lim s n d s1 b s2 : (0 < n <= lim)%nat -> read s n = (d, None, s1) -> copyN (lim - length d) s1 b s2 ->
    copyN lim s (d ++ b) s2
| copy_stop lim s n d e s1 : (0 < n <= lim)%nat -> read s n = (d, Some e, s1) -> copyN lim s d s1.

(* Read of io.MultiReader(&buf, r), and what is left of buf *)
Definition multi (m : bytes * St) (n : nat) : bytes * option rerr * (bytes * St) :=
  match fst m with
  | [] => let '(d, r, s) := read (snd m) n in (d, r, ([], s))
  | b => (firstn n b, None, (skipn n b, snd m))
  end.

(* io.ReadAll: the bytes, and the error if it is not io.EOF *)
Inductive readAll : bytes * St -> bytes -> option Z -> Prop :=
| all_more m n d m1 b r : (0 < n)%nat -> multi m n = (d, None, m1) -> readAll m1 b r -> readAll m (d ++ b) r
| all_end m n d m1 : (0 < n)%nat -> multi m n = (d, Some Eof, m1) -> readAll m d None
| all_fail m n d c m1 : (0 < n)%nat -> multi m n = (d, Some (Failed c), m1) -> readAll m d (Some c).

(* "audio/mpeg" *)
Definition audio_mpeg : bytes := [97; 117; 100; 105; 111; 47; 109; 112; 101; 103].
(* MIMETypeFromReader followed by uploadAttachment or uploadVoiceNote (attachments.go 56-58, 91-93: the type is
   fixed). sniff is mimemagic.Match. *)
Definition uploads (C : crypto) (sha256 sniff : bytes -> bytes) (sv : upserver) (keys iv : bytes) (voice : bool) (s : St)
    (o : res (pointer * (bytes * bytes))) : Prop :=
  exists buf s1 b r, copyN 1024 s buf s1 /\ readAll (buf, s1) b r /\
  o = match r with
      | Some _ => Err EOther
      | None => uploadAttachmentV3 C sha256 sv keys iv b (if voice then audio_mpeg else sniff buf) voice
      end.
End R.
