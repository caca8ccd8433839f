(* Outcomes of Go functions: a value, an error value, or a run-time panic. *)
From Coq Require Import ZArith List.
From Verif Require Import Bytes.
Open Scope Z_scope.

(* error values, by the place they come from *)
Inductive err : Type :=
| EProto                       (* proto.Unmarshal failure *)
| EIncomplete                  (* ErrIncompleteWhisperMessage / ...PreKey... *)
| EVersion (v : Z)             (* UnsupportedVersionError *)
| EBlock                       (* ciphertext not a multiple of the block size *)
| EPad                         (* pad value larger than the block size *)
| EKeySize                     (* aes.NewCipher: invalid key size *)
| EUninit                      (* ErrUninitializedSession *)
| EMismatch                    (* MismatchedVersionError *)
| EMac                         (* invalid MAC *)
| EDuplicate                   (* DuplicateMessageError *)
| EFuture                      (* over 2000 messages in the future *)
| EInvalidMessage              (* InvalidMessageError *)
| ENotTrusted                  (* NotTrustedError *)
| EPreKeyNotFound              (* PreKeyNotFoundError *)
| ESignature                   (* InvalidSignatureError *)
| ENotFound                    (* os / store: no such file or entry *)
| EBadFormat                   (* malformed text or length *)
| EServer (status : Z)         (* HTTP error response *)
| EUnauthorized                (* group change not permitted *)
| EBadRequest                  (* group change malformed *)
| EOther.

Inductive res (A : Type) : Type :=
| Ok (a : A)
| Err (e : err)
| Panic.
Arguments Ok {A} a.
Arguments Err {A} e.
Arguments Panic {A}.

Definition bind {A B} (r : res A) (f : A -> res B) : res B :=
  match r with Ok a => f a | Err e => Err e | Panic => Panic end.

Notation "'let*' x ':=' e 'in' k" := (bind e (fun x => k))
  (at level 200, x pattern, e at level 100, k at level 200, right associativity).

Definition of_option {A} (e : err) (o : option A) : res A :=
  match o with Some a => Ok a | None => Err e end.

Definition is_ok {A} (r : res A) : bool := match r with Ok _ => true | _ => false end.
Definition is_panic {A} (r : res A) : bool := match r with Panic => true | _ => false end.

Lemma bind_ok {A B} (r : res A) (f : A -> res B) b :
  bind r f = Ok b -> exists a, r = Ok a /\ f a = Ok b.
Proof. destruct r; simpl; try discriminate. eauto. Qed.
