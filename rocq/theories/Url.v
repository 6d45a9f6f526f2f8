(** URLs: what becomes of the path of a request on its way from the text that a client formats
    (producer/client.rs:82, 117, 163, 221, 255-257, 290-292) to the segments that the server's
    router compares. reqwest parses the text with the crate url (the WHATWG URL standard, for a
    scheme http or https); both crates are trusted to do what is modelled here. A server's address
    with a path of its own is not modelled. Strings are the bytes of texts in UTF-8. *)
From Coq Require Import Ascii.
From Verif Require Export Types.
Local Open Scope N_scope.

(** Blanks and control characters at the end of a URL are cut off ... *)
Definition blank (c : ascii) : bool := N_of_ascii c <=? 32.
Fixpoint trim_end (s : string) : string :=
  match s with
  | EmptyString => EmptyString
  | String c r =>
    match trim_end r with
    | EmptyString => if blank c then EmptyString else String c EmptyString
    | r' => String c r'
    end
  end.
(** ... tabs and ends of lines are left out everywhere ... *)
Definition skipped (c : ascii) : bool := let n := N_of_ascii c in (n =? 9) || (n =? 10) || (n =? 13).
Fixpoint drop_skipped (s : string) : string :=
  match s with EmptyString => EmptyString | String c r => if skipped c then drop_skipped r else String c (drop_skipped r) end.
(** ... and the path ends at the first ? or #. *)
Fixpoint path_part (s : string) : string :=
  match s with
  | EmptyString => EmptyString
  | String c r => if bool_decide (c = "?"%char \/ c = "#"%char) then EmptyString else String c (path_part r)
  end.
(** The segments are between slashes; a backslash counts as one. *)
Definition slash (c : ascii) : bool := bool_decide (c = "/"%char) || bool_decide (c = "\"%char).
Fixpoint segments (s : string) : list string :=
  match s with
  | EmptyString => [EmptyString]
  | String c r =>
    if slash c then EmptyString :: segments r
    else match segments r with x :: l => String c x :: l | [] => [String c EmptyString] end
  end.
(** Segments with a meaning of their own: one or two dots, which may also be written as %2e. *)
Definition one_dot (s : string) : bool := bool_decide (s ∈ ["."; "%2e"; "%2E"]%string).
Definition two_dots (s : string) : bool :=
  bool_decide (s ∈ [".."; ".%2e"; ".%2E"; "%2e."; "%2E."; "%2e%2e"; "%2e%2E"; "%2E%2e"; "%2E%2E"]%string).
(** In a segment these characters are written as %XY: controls, blanks and everything that is not
    ASCII, quotes, and # < > ? ` { }. (A newer version of the crate adds ^, which makes no difference.) *)
Definition escaped_char (c : ascii) : bool :=
  let n := N_of_ascii c in (n <=? 32) || (127 <=? n) || bool_decide (n ∈ [34; 35; 60; 62; 63; 96; 123; 125]).
Definition hex_char (n : N) : ascii := ascii_of_N (if n <? 10 then 48 + n else 55 + n).
Fixpoint escape (s : string) : string :=
  match s with
  | EmptyString => EmptyString
  | String c r =>
    if escaped_char c then String "%" (String (hex_char (N_of_ascii c / 16)) (String (hex_char (N_of_ascii c mod 16)) (escape r)))
    else String c (escape r)
  end.
(** The segments one after the other; [before]: those so far, the last one first. Two dots take
    the last one back. A segment of dots at the end leaves an empty one. *)
Fixpoint settle (before l : list string) : list string :=
  match l with
  | [] => reverse before
  | s :: l =>
    let dots := one_dot s || two_dots s in
    let before := if two_dots s then tail before else if one_dot s then before else escape s :: before in
    settle (match l with [] => if dots then EmptyString :: before else before | _ => before end) l
  end.
(** A path starts with a slash. *)
Definition url_segments (path : string) : list string :=
  match path with String _ r => settle [] (segments (path_part (drop_skipped (trim_end r)))) | EmptyString => [] end.

(** The server (axum's Path) replaces %XY in the segment that is a parameter. A result that is not
    UTF-8 is refused there; here it is taken, and fits no prefix in the database. *)
Definition hex_digit (c : ascii) : option N :=
  let n := N_of_ascii c in
  if (48 <=? n) && (n <=? 57) then Some (n - 48)
  else if (65 <=? n) && (n <=? 70) then Some (n - 55)
  else if (97 <=? n) && (n <=? 102) then Some (n - 87) else None.
Fixpoint percent_decode (s : string) : string :=
  match s with
  | EmptyString => EmptyString
  | String c r =>
    if bool_decide (c = "%"%char) then
      match r with
      | String a (String b r') =>
        match hex_digit a, hex_digit b with
        | Some x, Some y => String (ascii_of_N (16 * x + y)) (percent_decode r')
        | _, _ => String c (percent_decode r)
        end
      | _ => String c (percent_decode r)
      end
    else String c (percent_decode r)
  end.
