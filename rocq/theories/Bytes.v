(** The bytes of the messages: how ciborium writes and reads the values of the consumer API (CBOR,
    RFC 8949; consumer/common.rs:83-118) and serde_json those of the producer API (JSON, RFC 8259;
    producer/client.rs:88-262, axum's Json). Of the readers, what is needed for what the writers make,
    and the errors for what is cut off or damaged there; not the other forms they accept (lengths
    given later, longer heads than needed, floats, white space). Strings are bytes; that they are
    UTF-8 is not checked. *)
From Coq Require Import Ascii.
From Verif Require Export Wire.
Local Open Scope N_scope.

(** *** CBOR *)
(** [k] bytes of a number, the highest first. *)
Fixpoint be (k : nat) (n : N) : string :=
  match k with O => "" | S k => String (ascii_of_N (n / 256 ^ N.of_nat k)) (be k (n mod 256 ^ N.of_nat k)) end.
Fixpoint read_be (k : nat) (acc : N) (s : string) : option (N * string) :=
  match k, s with
  | O, _ => Some (acc, s)
  | S k, String c s => read_be k (acc * 256 + N_of_ascii c) s
  | S _, EmptyString => None
  end.
(** ciborium-ll's Encoder: the major type in three bits, then the number in the shortest form. *)
Definition title (major n : N) : string :=
  let first m := ascii_of_N (major * 32 + m) in
  if n <? 24 then String (first n) ""
  else if n <? 2 ^ 8 then String (first 24) (be 1 n)
  else if n <? 2 ^ 16 then String (first 25) (be 2 n)
  else if n <? 2 ^ 32 then String (first 26) (be 4 n)
  else String (first 27) (be 8 n).
(** ciborium-ll's Decoder. *)
Definition read_title (s : string) : option (N * N * string) :=
  match s with
  | EmptyString => None
  | String c s =>
    let major := N_of_ascii c / 32 in let minor := N_of_ascii c mod 32 in
    if minor <? 24 then Some (major, minor, s)
    else
      r ← (if minor =? 24 then read_be 1 0 s else if minor =? 25 then read_be 2 0 s
           else if minor =? 26 then read_be 4 0 s else if minor =? 27 then read_be 8 0 s else None);
      Some (major, r.1, r.2)
  end.
Fixpoint read_chars (k : nat) (s : string) : option (string * string) :=
  match k, s with
  | O, _ => Some ("", s)
  | S k, String c s => r ← read_chars k s; Some (String c r.1, r.2)
  | S _, EmptyString => None
  end.
Definition cat (l : list string) : string := foldr String.append "" l.
Definition write_text (s : string) : string := title 3 (N.of_nat (String.length s)) +:+ s.
(** ciborium::into_writer. *)
Fixpoint cbor_write (w : wire) : string :=
  match w with
  | WNull => String (ascii_of_N 246) ""
  | WNum z => if (z <? 0)%Z then title 1 (Z.to_N (-1 - z)) else title 0 (Z.to_N z)
  | WText s => write_text s
  | WList l => title 4 (N.of_nat (length l)) +:+ cat (List.map cbor_write l)
  | WObj l => title 5 (N.of_nat (length l)) +:+ cat (List.map (fun x => write_text x.1 +:+ cbor_write x.2) l)
  end.
Definition read_text (s : string) : option (string * string) :=
  '(major, n, s) ← read_title s; if major =? 3 then read_chars (N.to_nat n) s else None.
(** [n] values, and [n] members of a map. *)
Fixpoint cbor_items (value : string -> option (wire * string)) (n : nat) (s : string) : option (list wire * string) :=
  match n with
  | O => Some ([], s)
  | S n => '(w, s) ← value s; '(l, s) ← cbor_items value n s; Some (w :: l, s)
  end.
Fixpoint cbor_members (value : string -> option (wire * string)) (n : nat) (s : string) : option (list (string * wire) * string) :=
  match n with
  | O => Some ([], s)
  | S n => '(t, s) ← read_text s; '(w, s) ← value s; '(l, s) ← cbor_members value n s; Some ((t, w) :: l, s)
  end.
(** ciborium::from_reader: a value and what is left, which is ignored. [depth]: how many containers
    may still be opened. *)
Fixpoint cbor_read (depth : nat) (s : string) : option (wire * string) :=
  '(major, n, r) ← read_title s;
  if major =? 0 then Some (WNum (Z.of_N n), r)
  else if major =? 1 then Some (WNum (-1 - Z.of_N n), r)
  else if major =? 3 then x ← read_chars (N.to_nat n) r; Some (WText x.1, x.2)
  else if (major =? 7) && (n =? 22) then Some (WNull, r)
  else
    match depth with
    | O => None
    | S depth =>
      if major =? 4 then x ← cbor_items (cbor_read depth) (N.to_nat n) r; Some (WList x.1, x.2)
      else if major =? 5 then x ← cbor_members (cbor_read depth) (N.to_nat n) r; Some (WObj x.1, x.2)
      else None
    end.
(** ciborium's limit. It also counts one for a strategy's name. *)
Definition cbor_depth : nat := 256.
Definition from_reader {A} (dec : wire -> option A) (s : string) : option A := x ← cbor_read cbor_depth s; dec x.1.

(** *** JSON *)
Definition hex (n : N) : ascii := ascii_of_N (if n <? 10 then 48 + n else 87 + n).
Definition unhex (c : ascii) : option N :=
  let n := N_of_ascii c in
  if (48 <=? n) && (n <? 58) then Some (n - 48) else if (97 <=? n) && (n <? 103) then Some (n - 87)
  else if (65 <=? n) && (n <? 71) then Some (n - 55) else None.
(** serde_json's format_escaped_str: \b \t \n \f \r, \u00.. for the other control characters. *)
Definition escaped (c : ascii) : string :=
  let n := N_of_ascii c in
  if n =? 34 then "\""" else if n =? 92 then "\\" else if n =? 8 then "\b" else if n =? 9 then "\t"
  else if n =? 10 then "\n" else if n =? 12 then "\f" else if n =? 13 then "\r"
  else if n <? 32 then "\u00" +:+ String (hex (n / 16)) (String (hex (n mod 16)) "")
  else String c "".
Definition quote_char : ascii := ascii_of_N 34.
Definition write_quoted (s : string) : string := String quote_char (cat (List.map escaped (list_ascii_of_string s)) +:+ String quote_char "").
Fixpoint commas (l : list string) : string :=
  match l with [] => "" | [x] => x | x :: l => x +:+ "," +:+ commas l end.
Definition write_int (z : Z) : string := (if (z <? 0)%Z then "-" else "") +:+ show_n (Z.abs_N z).
(** serde_json::to_vec. *)
Fixpoint json_write (w : wire) : string :=
  match w with
  | WNull => "null"
  | WNum z => write_int z
  | WText s => write_quoted s
  | WList l => "[" +:+ commas (List.map json_write l) +:+ "]"
  | WObj l => "{" +:+ commas (List.map (fun x => write_quoted x.1 +:+ ":" +:+ json_write x.2) l) +:+ "}"
  end.
(** The rest of a string after the quote. Of the escapes \u only those below 128. *)
Fixpoint read_quoted (s : string) : option (string * string) :=
  match s with
  | EmptyString => None
  | String c s =>
    let n := N_of_ascii c in
    if n =? 34 then Some ("", s)
    else if n =? 92 then
      match s with
      | EmptyString => None
      | String e s =>
        let simple (k : N) := r ← read_quoted s; Some (String (ascii_of_N k) r.1, r.2) in
        let m := N_of_ascii e in
        if m =? 34 then simple 34 else if m =? 92 then simple 92 else if m =? 47 then simple 47 else if m =? 98 then simple 8
        else if m =? 116 then simple 9 else if m =? 110 then simple 10 else if m =? 102 then simple 12 else if m =? 114 then simple 13
        else if m =? 117 then
          match s with
          | String "0" (String "0" (String a (String b s))) =>
            h ← unhex a; l ← unhex b;
            if h * 16 + l <? 128 then r ← read_quoted s; Some (String (ascii_of_N (h * 16 + l)) r.1, r.2) else None
          | _ => None
          end
        else None
      end
    else if n <? 32 then None
    else r ← read_quoted s; Some (String c r.1, r.2)
  end.
Definition is_digit (c : ascii) : bool := let n := N_of_ascii c in (48 <=? n) && (n <? 58).
Fixpoint span_digits (s : string) : string * string :=
  match s with
  | String c s' => if is_digit c then let r := span_digits s' in (String c r.1, r.2) else ("", s)
  | EmptyString => ("", "")
  end.
(** A number without fraction and exponent, in the range of i64 or u64 (others become floats); no
    zeros in front. *)
Definition leading_zero (s : string) : bool :=
  match s with String c (String _ _) => N_of_ascii c =? 48 | _ => false end.
Definition float_follows (s : string) : bool :=
  match s with String c _ => let n := N_of_ascii c in (n =? 46) || (n =? 69) || (n =? 101) | _ => false end.
Definition read_nat (s : string) : option (N * string) :=
  let d := span_digits s in
  if leading_zero d.1 || float_follows d.2 then None else n ← read_n d.1; Some (n, d.2).
Definition read_int (s : string) : option (Z * string) :=
  match s with
  | String c s' =>
    '(z, r) ← (if N_of_ascii c =? 45 then x ← read_nat s'; Some ((- Z.of_N x.1)%Z, x.2) else x ← read_nat s; Some (Z.of_N x.1, x.2));
    if ((- 2 ^ 63 <=? z) && (z <? 2 ^ 64))%Z then Some (z, r) else None
  | EmptyString => None
  end.
(** The elements after the opening bracket, at least one; [fuel]: at most the length of the text. *)
Fixpoint json_items (value : string -> option (wire * string)) (fuel : nat) (s : string) : option (list wire * string) :=
  match fuel with
  | O => None
  | S fuel =>
    '(w, s) ← value s;
    match s with
    | String "," s => '(l, s) ← json_items value fuel s; Some (w :: l, s)
    | String "]" s => Some ([w], s)
    | _ => None
    end
  end.
Definition read_key (s : string) : option (string * string) :=
  match s with
  | String q s =>
    if N_of_ascii q =? 34 then '(t, s) ← read_quoted s; match s with String ":" s => Some (t, s) | _ => None end else None
  | EmptyString => None
  end.
Fixpoint json_members (value : string -> option (wire * string)) (fuel : nat) (s : string) : option (list (string * wire) * string) :=
  match fuel with
  | O => None
  | S fuel =>
    '(t, s) ← read_key s; '(w, s) ← value s;
    match s with
    | String "," s => '(l, s) ← json_members value fuel s; Some ((t, w) :: l, s)
    | String "}" s => Some ([(t, w)], s)
    | _ => None
    end
  end.
(** serde_json::from_slice, before the check that nothing is left. [depth]: how many containers may
    still be opened. *)
Fixpoint json_read (depth : nat) (s : string) : option (wire * string) :=
  match s with
  | EmptyString => None
  | String c r =>
    if N_of_ascii c =? 34 then x ← read_quoted r; Some (WText x.1, x.2)
    else if is_digit c || (N_of_ascii c =? 45) then x ← read_int s; Some (WNum x.1, x.2)
    else if N_of_ascii c =? 110 then match r with String "u" (String "l" (String "l" r)) => Some (WNull, r) | _ => None end
    else
      match depth with
      | O => None
      | S depth =>
        if N_of_ascii c =? 91 then
          match r with
          | String "]" r => Some (WList [], r)
          | _ => x ← json_items (json_read depth) (String.length r) r; Some (WList x.1, x.2)
          end
        else if N_of_ascii c =? 123 then
          match r with
          | String "}" r => Some (WObj [], r)
          | _ => x ← json_members (json_read depth) (String.length r) r; Some (WObj x.1, x.2)
          end
        else None
      end
  end.
(** serde_json: 128, of which the last cannot be used up. *)
Definition json_depth : nat := 127.
Definition from_slice {A} (dec : wire -> option A) (s : string) : option A :=
  '(w, r) ← json_read json_depth s; match r with EmptyString => dec w | _ => None end.

(** *** Specification *)
(** Numbers that a format can carry. *)
Fixpoint in_format (lo hi : Z) (w : wire) : Prop :=
  match w with
  | WNum z => (lo <= z < hi)%Z
  | WList l => foldr (fun x P => in_format lo hi x /\ P) True l
  | WObj l => foldr (fun x P => in_format lo hi x.2 /\ P) True l
  | _ => True
  end.
Definition cbor_carries : wire -> Prop := in_format (- 2 ^ 64) (2 ^ 64).
Definition json_carries : wire -> Prop := in_format (- 2 ^ 63) (2 ^ 64).
(** The nesting of containers. *)
Fixpoint depth_of (w : wire) : nat :=
  match w with
  | WList l => S (foldr (fun x n => depth_of x `max` n)%nat 0%nat l)
  | WObj l => S (foldr (fun x n => depth_of x.2 `max` n)%nat 0%nat l)
  | _ => 0
  end.
