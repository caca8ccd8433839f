(* The protobuf wire format as implemented by the Go protobuf runtime
   (google.golang.org/protobuf/encoding/protowire and internal/impl/decode.go), the codec behind every
   proto.Marshal / proto.Unmarshal in /repo. This is library behaviour, not /repo code. *)
From Coq Require Import ZArith List Lia Bool.
From Verif Require Import Bytes.
Import ListNotations.
Open Scope Z_scope.

Inductive wval : Type :=
| WVarint (v : Z)          (* wire type 0 *)
| WI64 (v : Z)             (* wire type 1, fixed64 *)
| WLen (b : bytes)         (* wire type 2 *)
| WI32 (v : Z).            (* wire type 5, fixed32 *)

Definition wfield : Type := Z * wval.

(* protowire.AppendVarint on a uint64 *)
Fixpoint enc_varint (fuel : nat) (v : Z) : bytes :=
  match fuel with
  | O => []
  | S f => if v <? 128 then [v] else (v mod 128 + 128) :: enc_varint f (v / 128)
  end.
Definition varint (v : Z) : bytes := enc_varint 10 v.

(* protowire.ConsumeVarint: at most ten bytes, the tenth below 2 *)
Fixpoint dec_varint (n : nat) (bs : bytes) : option (Z * bytes) :=
  match n, bs with
  | S n', b :: rest =>
      match n' with
      | O => if b <? 2 then Some (b, rest) else None
      | S _ =>
          if b <? 128 then Some (b, rest)
          else match dec_varint n' rest with
               | Some (v, r) => Some (b - 128 + 128 * v, r)
               | None => None
               end
      end
  | _, _ => None
  end.
Definition unvarint (bs : bytes) : option (Z * bytes) := dec_varint 10 bs.

Definition wtype (v : wval) : Z :=
  match v with WVarint _ => 0 | WI64 _ => 1 | WLen _ => 2 | WI32 _ => 5 end.

Definition enc_val (v : wval) : bytes :=
  match v with
  | WVarint n => varint n
  | WI64 n => le_enc 8 n
  | WLen b => varint (zlen b) ++ b
  | WI32 n => le_enc 4 n
  end.

Definition enc_field (f : wfield) : bytes :=
  varint (fst f * 8 + wtype (snd f)) ++ enc_val (snd f).

Definition encode (fs : list wfield) : bytes := flat_map enc_field fs.

Definition take_n (n : nat) (bs : bytes) : option (bytes * bytes) :=
  if Nat.leb n (length bs) then Some (firstn n bs, skipn n bs) else None.

(* ConsumeBytes *)
Definition take_len (bs : bytes) : option (bytes * bytes) :=
  match unvarint bs with
  | Some (m, r) => if m <=? zlen r then Some (firstn (Z.to_nat m) r, skipn (Z.to_nat m) r) else None
  | None => None
  end.

Definition max_field : Z := 2 ^ 29 - 1.

(* tag, then field number check of internal/impl/decode.go *)
Definition dec_tag (bs : bytes) : option (Z * Z * bytes) :=
  match unvarint bs with
  | Some (t, r) =>
      let num := t / 8 in
      if (num <? 1) || (max_field <? num) then None else Some (num, t mod 8, r)
  | None => None
  end.

(* ConsumeFieldValue for a start group: skips fields up to the matching end group *)
Fixpoint skip_group (fuel : nat) (num : Z) (bs : bytes) : option bytes :=
  match fuel with
  | O => None
  | S f =>
      match dec_tag bs with
      | None => None
      | Some (n, t, r) =>
          if t =? 4 then (if n =? num then Some r else None)
          else
            let next :=
              if t =? 0 then option_map snd (unvarint r)
              else if t =? 1 then option_map snd (take_n 8 r)
              else if t =? 2 then option_map snd (take_len r)
              else if t =? 3 then skip_group f n r
              else if t =? 5 then option_map snd (take_n 4 r)
              else None in
            match next with
            | Some r' => skip_group f num r'
            | None => None
            end
      end
  end.

(* One pass over a message. Unknown groups are skipped; everything else is listed in order. *)
Fixpoint parse_fuel (fuel : nat) (bs : bytes) : option (list wfield) :=
  match bs with
  | [] => Some []
  | _ :: _ =>
    match fuel with
    | O => None
    | S f =>
      match dec_tag bs with
      | None => None
      | Some (num, t, r) =>
          let continue_with (fs : list wfield) (r' : bytes) :=
            match parse_fuel f r' with
            | Some rest => Some (fs ++ rest)
            | None => None
            end in
          if t =? 0 then
            match unvarint r with
            | Some (v, r') => continue_with [(num, WVarint v)] r' | None => None end
          else if t =? 1 then
            match take_n 8 r with
            | Some (b, r') => continue_with [(num, WI64 (le_dec b))] r' | None => None end
          else if t =? 2 then
            match take_len r with
            | Some (b, r') => continue_with [(num, WLen b)] r' | None => None end
          else if t =? 3 then
            match skip_group (length r) num r with
            | Some r' => continue_with [] r' | None => None end
          else if t =? 5 then
            match take_n 4 r with
            | Some (b, r') => continue_with [(num, WI32 (le_dec b))] r' | None => None end
          else None
      end
    end
  end.

Definition parse (bs : bytes) : option (list wfield) := parse_fuel (length bs) bs.

(* Field access after parsing: a scalar is set by its last occurrence; an occurrence of the wrong
   wire type counts as unknown. *)
Fixpoint get_len (n : Z) (fs : list wfield) : option bytes :=
  match fs with
  | [] => None
  | (m, v) :: t =>
      match get_len n t with
      | Some b => Some b
      | None => if m =? n then match v with WLen b => Some b | _ => None end else None
      end
  end.

Fixpoint get_varint (n : Z) (fs : list wfield) : option Z :=
  match fs with
  | [] => None
  | (m, v) :: t =>
      match get_varint n t with
      | Some b => Some b
      | None => if m =? n then match v with WVarint b => Some b | _ => None end else None
      end
  end.

Fixpoint get_i64 (n : Z) (fs : list wfield) : option Z :=
  match fs with
  | [] => None
  | (m, v) :: t =>
      match get_i64 n t with
      | Some b => Some b
      | None => if m =? n then match v with WI64 b => Some b | _ => None end else None
      end
  end.

(* all occurrences of a length-delimited field: repeated bytes or messages *)
Fixpoint get_all (n : Z) (fs : list wfield) : list bytes :=
  match fs with
  | [] => []
  | (m, WLen b) :: t => if m =? n then b :: get_all n t else get_all n t
  | _ :: t => get_all n t
  end.

(* A singular embedded message: the occurrences are merged, which for the field accessors above is
   the concatenation of their field lists. [Some None] is a parse error inside one of them. *)
Fixpoint parse_all (l : list bytes) : option (list wfield) :=
  match l with
  | [] => Some []
  | b :: t => match parse b, parse_all t with
              | Some f, Some r => Some (f ++ r) | _, _ => None end
  end.

Definition get_sub (n : Z) (fs : list wfield) : option (option (list wfield)) :=
  match get_all n fs with
  | [] => None
  | l => Some (parse_all l)
  end.

(* conversions of a decoded varint to the field's Go type *)
Definition to_u32 (v : Z) : Z := v mod 2 ^ 32.
Definition to_i32 (v : Z) : Z := let u := v mod 2 ^ 32 in if u <? 2 ^ 31 then u else u - 2 ^ 32.
(* int32 is marshalled sign-extended to 64 bits *)
Definition of_i32 (v : Z) : Z := v mod 2 ^ 64.
