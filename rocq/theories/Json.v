(* A reader of JSON texts (RFC 8259), used to state what the gateway answers. It is a specification, not a model: the
   program writes its answers with fmt.Fprintf. Bytes from 128 on stand for themselves, and the two halves of a surrogate
   pair are not joined. *)
From Coq Require Import ZArith List Bool.
From Verif Require Import Bytes.
Import ListNotations.
Open Scope Z_scope.

Inductive json := Jn | Jb (b : bool) | Jnum (b : bytes) | Js (s : bytes) | Ja (l : list json) | Jo (l : list (bytes * json)).

(* white space *)
Fixpoint ws (b : bytes) : bytes :=
  match b with
  | c :: r => if (c =? 32) || (c =? 9) || (c =? 10) || (c =? 13) then ws r else b
  | [] => []
  end.
Definition hexval (c : Z) : option Z :=
  if (48 <=? c) && (c <=? 57) then Some (c - 48)
  else if (65 <=? c) && (c <=? 70) then Some (c - 55)
  else if (97 <=? c) && (c <=? 102) then Some (c - 87) else None.
Definition hex4 (a b c d : Z) : option Z :=
  match hexval a, hexval b, hexval c, hexval d with
  | Some a, Some b, Some c, Some d => Some (((a * 16 + b) * 16 + c) * 16 + d)
  | _, _, _, _ => None
  end.
Definition utf8 (u : Z) : bytes :=
  if u <? 128 then [u] else if u <? 2048 then [192 + u / 64; 128 + u mod 64]
  else [224 + u / 4096; 128 + (u / 64) mod 64; 128 + u mod 64].
Definition escaped (c : Z) : option Z :=
  if (c =? 34) || (c =? 92) || (c =? 47) then Some c
  else if c =? 98 then Some 8 else if c =? 102 then Some 12 else if c =? 110 then Some 10
  else if c =? 114 then Some 13 else if c =? 116 then Some 9 else None.
(* a string after its first quotation mark, and what follows it *)
Fixpoint str (b : bytes) : option (bytes * bytes) :=
  match b with
  | [] => None
  | c :: r =>
      if c =? 34 then Some ([], r)
      else if c =? 92 then
        match r with
        | [] => None
        | e :: r1 =>
            if e =? 117 then
              match r1 with
              | h1 :: h2 :: h3 :: h4 :: r2 =>
                  match hex4 h1 h2 h3 h4, str r2 with
                  | Some u, Some (s, r3) => Some (utf8 u ++ s, r3)
                  | _, _ => None
                  end
              | _ => None
              end
            else match escaped e, str r1 with
                 | Some x, Some (s, r2) => Some (x :: s, r2)
                 | _, _ => None
                 end
        end
      else if c <? 32 then None
      else match str r with Some (s, r1) => Some (c :: s, r1) | None => None end
  end.
Definition digit (c : Z) : bool := (48 <=? c) && (c <=? 57).
Fixpoint digits (b : bytes) : bytes * bytes :=
  match b with
  | c :: r => if digit c then let (d, t) := digits r in (c :: d, t) else ([], b)
  | [] => ([], [])
  end.
Definition digits1 (b : bytes) : option (bytes * bytes) := match digits b with ([], _) => None | x => Some x end.
(* the byte c at the beginning *)
Definition is_at (c : Z) (b : bytes) : option bytes := match b with x :: r => if x =? c then Some r else None | [] => None end.
(* a number, as it is written *)
Definition number (b : bytes) : option (bytes * bytes) :=
  let (sign, b1) := match is_at 45 b with Some r => ([45], r) | None => ([], b) end in
  match (match is_at 48 b1 with Some r => Some ([48], r) | None => digits1 b1 end) with
  | None => None
  | Some (int, b2) =>
      match (match is_at 46 b2 with Some r => option_map (fun x => (46 :: fst x, snd x)) (digits1 r) | None => Some ([], b2) end) with
      | None => None
      | Some (frac, b3) =>
          match b3 with
          | e :: r =>
              if (e =? 101) || (e =? 69) then
                let (s, r1) := match r with x :: r' => if (x =? 43) || (x =? 45) then ([x], r') else ([], r) | [] => ([], r) end in
                match digits1 r1 with Some (d, r2) => Some (sign ++ int ++ frac ++ e :: s ++ d, r2) | None => None end
              else Some (sign ++ int ++ frac, b3)
          | [] => Some (sign ++ int ++ frac, b3)
          end
      end
  end.
(* true, false, null *)
Fixpoint word (w b : bytes) : option bytes :=
  match w with [] => Some b | c :: w' => match is_at c b with Some r => word w' r | None => None end end.
Definition scalar (b : bytes) : option (json * bytes) :=
  match word [116; 114; 117; 101] b, word [102; 97; 108; 115; 101] b, word [110; 117; 108; 108] b with
  | Some r, _, _ => Some (Jb true, r)
  | None, Some r, _ => Some (Jb false, r)
  | None, None, Some r => Some (Jn, r)
  | None, None, None => option_map (fun x => (Jnum (fst x), snd x)) (number b)
  end.
(* a value; the members of an object and the elements of an array after the first bracket *)
Fixpoint value (n : nat) (b : bytes) {struct n} : option (json * bytes) :=
  match n with
  | O => None
  | S n =>
      match is_at 123 (ws b), is_at 91 (ws b), is_at 34 (ws b) with
      | Some r, _, _ => match is_at 125 (ws r) with
                        | Some r1 => Some (Jo [], r1)
                        | None => option_map (fun x => (Jo (fst x), snd x)) (members n r)
                        end
      | None, Some r, _ => match is_at 93 (ws r) with
                           | Some r1 => Some (Ja [], r1)
                           | None => option_map (fun x => (Ja (fst x), snd x)) (elements n r)
                           end
      | None, None, Some r => option_map (fun x => (Js (fst x), snd x)) (str r)
      | None, None, None => scalar (ws b)
      end
  end
with members (n : nat) (b : bytes) {struct n} : option (list (bytes * json) * bytes) :=
  match n with
  | O => None
  | S n =>
      match is_at 34 (ws b) with
      | None => None
      | Some r =>
          match str r with
          | None => None
          | Some (k, r1) =>
              match is_at 58 (ws r1) with
              | None => None
              | Some r2 =>
                  match value n r2 with
                  | None => None
                  | Some (v, r3) =>
                      match is_at 44 (ws r3), is_at 125 (ws r3) with
                      | Some r4, _ => option_map (fun x => ((k, v) :: fst x, snd x)) (members n r4)
                      | None, Some r4 => Some ([(k, v)], r4)
                      | None, None => None
                      end
                  end
              end
          end
      end
  end
with elements (n : nat) (b : bytes) {struct n} : option (list json * bytes) :=
  match n with
  | O => None
  | S n =>
      match value n b with
      | Some (v, r) =>
          match is_at 44 (ws r), is_at 93 (ws r) with
          | Some r1, _ => option_map (fun x => (v :: fst x, snd x)) (elements n r1)
          | None, Some r1 => Some ([v], r1)
          | None, None => None
          end
      | None => None
      end
  end.
(* the text is JSON and stands for v *)
Definition reads_as (b : bytes) (v : json) : Prop := exists n r, value n b = Some (v, r) /\ ws r = [].
