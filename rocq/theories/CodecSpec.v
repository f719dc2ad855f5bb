(** What reading a text file means (C113-C115): the UTF-8 form of a text, the
    ends of its lines, and files with bytes that belong to no character. *)
From Coq Require Import List NArith Bool String.
From Verif Require Import PyStr.
Import ListNotations.
Notation length := List.length.
Notation concat := List.concat.
Open Scope list_scope.

(** A Unicode character that can be written in UTF-8. *)
Definition scalar (x : ch) : Prop := (x < 55296 \/ 57343 < x < 1114112)%N.
(** Its UTF-8 form (RFC 3629). *)
Definition encode1 (x : ch) : list N :=
  (if x <? 128 then [x]
   else if x <? 2048 then [192 + x / 64; 128 + x mod 64]
   else if x <? 65536 then [224 + x / 4096; 128 + (x / 64) mod 64; 128 + x mod 64]
   else [240 + x / 262144; 128 + (x / 4096) mod 64; 128 + (x / 64) mod 64; 128 + x mod 64])%N.
Definition encode (t : str) : list N := concat (map encode1 t).

(** [unix s u]: u is s with every line ended by a line feed, whether it ended in
    a line feed, a carriage return, or a carriage return and a line feed. *)
Inductive unix : str -> str -> Prop :=
| u_end : unix [] []
| u_crlf : forall s u, unix s u -> unix (13%N :: 10%N :: s) (10%N :: u)
| u_cr : forall s u, unix s u -> (forall r, s <> 10%N :: r) -> unix (13%N :: s) (10%N :: u)
| u_other : forall x s u, x <> 13%N -> unix s u -> unix (x :: s) (x :: u).

(** A damaged file: characters in UTF-8, and single bytes of another encoding. *)
Inductive part := Tx (x : ch) | Byte (b : N).
Definition raw1 (p : part) : list N := match p with Tx x => encode1 x | Byte b => [b] end.
Definition raw (l : list part) : list N := concat (map raw1 l).
Definition seen (l : list part) : str := map (fun p => match p with Tx x => x | Byte _ => 65533%N end) l.
(** A byte above 127 that cannot begin a character, or is not followed by a byte that could continue it. *)
Definition stray (b : N) (next : list N) : Prop :=
  (128 <= b < 194 \/ 245 <= b < 256 \/ 194 <= b < 245 /\ forall c r, next = c :: r -> ~ (128 <= c <= 191))%N.
Fixpoint damaged (l : list part) : Prop :=
  match l with
  | [] => True
  | Tx x :: r => scalar x /\ damaged r
  | Byte b :: r => stray b (raw r) /\ damaged r
  end.

(** The detector takes the file for UTF-8: it says so, says ASCII, has no answer or is not sure. *)
Definition takes_for_utf8 (answer : option str * bool) : Prop :=
  fst answer = None \/ snd answer = false \/ fst answer = Some (lit "ascii") \/ fst answer = Some (lit "utf-8").
(** What the detector is shown. *)
Definition sample (data s : list N) : Prop := exists r, data = s ++ r /\ (N.of_nat (length s) <= 10000)%N /\ (r = [] \/ N.of_nat (length s) = 10000%N).
