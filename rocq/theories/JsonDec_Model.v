(** * Model of [json.Decoder.Decode] into a map, as the OAuth providers use it

    auth/oauth/github.go 79-82 and 118-121, auth/oauth/google.go 101-104 and 147-150: the
    body of an answer becomes a [map[string]interface{}].  Scanner and decoder of
    encoding/json (Go 1.19: scanner.go, stream.go, decode.go) are one recursive function
    here.  Arrays and objects inside the object are checked, and their contents are left
    out, as the providers do not use them (but for the texts of errors). *)
From Coq Require Import List NArith ZArith Ascii String Bool.
From Verif Require Import GoBase Json_Model OAuthWire_Model.
Import ListNotations.
Local Open Scope string_scope.
Local Open Scope list_scope.
Local Open Scope N_scope.

(** [isSpace] (scanner.go). *)
Definition is_blank (b : byte) : bool := existsb (N.eqb (code b)) [32; 9; 13; 10].
Fixpoint skip_blank (s : bytes) : bytes :=
  match s with
  | b :: s' => if is_blank b then skip_blank s' else s
  | [] => []
  end.

(** The rest after a word, if the text begins with it (the states [stateN] to [stateNul]
    and the like of scanner.go). *)
Fixpoint after (w s : bytes) : option bytes :=
  match w, s with
  | [], _ => Some s
  | a :: w', b :: s' => if code a =? code b then after w' s' else None
  | _ :: _, [] => None
  end.

(** [getu4] (decode.go) on the digits. *)
Definition hex_num (b : byte) : option N :=
  if between 48 57 b then Some (code b - 48)
  else if between 97 102 b then Some (code b - 87)
  else if between 65 70 b then Some (code b - 55)
  else None.
Definition u4 (a b c d : byte) : option N :=
  match hex_num a, hex_num b, hex_num c, hex_num d with
  | Some x, Some y, Some z, Some u => Some (x * 4096 + y * 256 + z * 16 + u)
  | _, _, _, _ => None
  end.

(** [utf8.EncodeRune]. *)
Definition encode_rune (c : N) : bytes :=
  if c <? 128 then [ascii_of_N c]
  else if c <? 2048 then [ascii_of_N (192 + c / 64); ascii_of_N (128 + c mod 64)]
  else if c <? 65536 then [ascii_of_N (224 + c / 4096); ascii_of_N (128 + c / 64 mod 64); ascii_of_N (128 + c mod 64)]
  else [ascii_of_N (240 + c / 262144); ascii_of_N (128 + c / 4096 mod 64); ascii_of_N (128 + c / 64 mod 64); ascii_of_N (128 + c mod 64)].
Definition replacement : bytes := encode_rune 65533.

(** The letters after a reverse solidus ([stateInStringEsc], [unquoteBytes]). *)
Definition short_escape (b : byte) : option byte :=
  let n := code b in
  if existsb (N.eqb n) [34; 92; 47] then Some b
  else if n =? 98 then Some (ascii_of_N 8)
  else if n =? 102 then Some (ascii_of_N 12)
  else if n =? 110 then Some (ascii_of_N 10)
  else if n =? 114 then Some (ascii_of_N 13)
  else if n =? 116 then Some (ascii_of_N 9)
  else None.

(** The second half of a pair of surrogates at the beginning of a text ([getu4],
    [utf16.DecodeRune]). *)
Definition low_half (s : bytes) : option N :=
  match s with
  | x :: y :: a :: b :: c :: d :: _ =>
      if (code x =? 92) && (code y =? 117) then
        match u4 a b c d with
        | Some n => if (56320 <=? n) && (n <? 57344) then Some n else None
        | None => None
        end
      else None
  | _ => None
  end.

(** A string after its first quote: the text and what follows the last quote
    ([stateInString] and its successors, [unquoteBytes]). *)
Definition emit (out : bytes) (r : option (bytes * bytes)) : option (bytes * bytes) :=
  match r with Some (s, rest) => Some (out ++ s, rest) | None => None end.
Fixpoint read_string (s : bytes) : option (bytes * bytes) :=
  match s with
  | [] => None
  | b :: s1 =>
      if code b =? 34 then Some ([], s1)
      else if code b =? 92 then
        match s1 with
        | [] => None
        | e :: s2 =>
            if code e =? 117 then
              match s2 with
              | h1 :: h2 :: h3 :: h4 :: s3 =>
                  match u4 h1 h2 h3 h4 with
                  | None => None
                  | Some n =>
                      if (55296 <=? n) && (n <? 57344) then
                        match (if n <? 56320 then low_half s3 else None), s3 with
                        | Some m, _ :: _ :: _ :: _ :: _ :: _ :: s4 =>
                            emit (encode_rune (65536 + (n - 55296) * 1024 + (m - 56320))) (read_string s4)
                        | _, _ => emit replacement (read_string s3)
                        end
                      else emit (encode_rune n) (read_string s3)
                  end
              | _ => None
              end
            else match short_escape e with
                 | Some c => emit [c] (read_string s2)
                 | None => None
                 end
        end
      else if code b <? 32 then None
      else if code b <? 128 then emit [b] (read_string s1)
      else match rune_bytes s, s1 with
           | 2%nat, c :: s2 => emit [b; c] (read_string s2)
           | 3%nat, c :: d :: s3 => emit [b; c; d] (read_string s3)
           | 4%nat, c :: d :: e :: s4 => emit [b; c; d; e] (read_string s4)
           | _, _ => emit replacement (read_string s1)
           end
  end.

(** The digits at the beginning of a text. *)
Fixpoint span_digits (s : bytes) : bytes * bytes :=
  match s with
  | b :: s' => if between 48 57 b then let (ds, r) := span_digits s' in (b :: ds, r) else ([], s)
  | [] => ([], [])
  end.

(** The parts of a number ([stateNeg] to [stateE0]): integer, fraction, exponent. *)
Definition scan_int (s : bytes) : option (bytes * bytes) :=
  match s with
  | b :: s' => if code b =? 48 then Some ([b], s') else if between 49 57 b then Some (span_digits s) else None
  | [] => None
  end.
Definition scan_digits (s : bytes) : option (bytes * bytes) :=
  match span_digits s with ([], _) => None | p => Some p end.
Definition scan_frac (s : bytes) : option (bytes * bytes) :=
  match s with
  | b :: s' => if code b =? 46 then emit [b] (scan_digits s') else Some ([], s)
  | [] => Some ([], [])
  end.
Definition scan_exp (s : bytes) : option (bytes * bytes) :=
  match s with
  | b :: s' =>
      if (code b =? 101) || (code b =? 69) then
        match s' with
        | g :: s'' => if (code g =? 43) || (code g =? 45) then emit [b; g] (scan_digits s'') else emit [b] (scan_digits s')
        | [] => None
        end
      else Some ([], s)
  | [] => Some ([], [])
  end.
Definition scan_number (s : bytes) : option (bytes * bytes) :=
  let (sign, s1) := match s with
                    | b :: s' => if code b =? 45 then ([b], s') else ([], s)
                    | [] => ([], [])
                    end in
  match scan_int s1 with
  | None => None
  | Some (i, s2) =>
      match scan_frac s2 with
      | None => None
      | Some (f, s3) =>
          match scan_exp s3 with
          | None => None
          | Some (e, s4) => Some (sign ++ i ++ f ++ e, s4)
          end
      end
  end.

Section Decoder.
(** [decodeState.convertNumber] and the conversion to [int] for a number that is not whole
    or beyond 2^53: [strconv.ParseFloat] is not modelled; [None] if the number is out of
    range. *)
Variable other : bytes -> option Z.

(** A whole number; up to 2^53 a float64 holds it. *)
Definition decimal_num (ds : bytes) : N := fold_left (fun n b => n * 10 + (code b - 48)) ds 0.
Definition whole_num (t : bytes) : option Z :=
  match t with
  | b :: t' =>
      if code b =? 45 then (if forallb (between 48 57) t' then Some (- Z.of_N (decimal_num t'))%Z else None)
      else if forallb (between 48 57) t then Some (Z.of_N (decimal_num t)) else None
  | [] => None
  end.
Definition number_of (t : bytes) : option Z :=
  match whole_num t with
  | Some z => if (Z.abs z <=? 9007199254740992)%Z then Some z else other t
  | None => other t
  end.

(** A value, the elements of an array after its bracket and the members of an object after
    its brace, with what follows them.  [depth] is the number of open brackets
    ([maxNestingDepth], [pushParseState]); [fuel] bounds the recursion and is larger than
    twice the length of the text. *)
Fixpoint read_value (fuel : nat) (depth : N) (s : bytes) : option (jval * bytes) :=
  match fuel with
  | O => None
  | S f =>
      match s with
      | [] => None
      | b :: s1 =>
          if code b =? 34 then
            match read_string s1 with Some (v, r) => Some (JvStr v, r) | None => None end
          else if code b =? 91 then
            if depth <? 10000 then
              match skip_blank s1 with
              | c :: r => if code c =? 93 then Some (JvOther, r)
                          else match read_elements f (depth + 1) s1 with Some r => Some (JvOther, r) | None => None end
              | [] => None
              end
            else None
          else if code b =? 123 then
            if depth <? 10000 then
              match skip_blank s1 with
              | c :: r => if code c =? 125 then Some (JvOther, r)
                          else match read_members f (depth + 1) s1 with Some (_, r) => Some (JvOther, r) | None => None end
              | [] => None
              end
            else None
          else if code b =? 110 then match after (str "null") s with Some r => Some (JvOther, r) | None => None end
          else if code b =? 116 then match after (str "true") s with Some r => Some (JvOther, r) | None => None end
          else if code b =? 102 then match after (str "false") s with Some r => Some (JvOther, r) | None => None end
          else match scan_number s with
               | Some (t, r) => match number_of t with Some z => Some (JvNum z, r) | None => None end
               | None => None
               end
      end
  end
with read_elements (fuel : nat) (depth : N) (s : bytes) : option bytes :=
  match fuel with
  | O => None
  | S f =>
      match read_value f depth (skip_blank s) with
      | None => None
      | Some (_, r) =>
          match skip_blank r with
          | c :: r' => if code c =? 44 then read_elements f depth r' else if code c =? 93 then Some r' else None
          | [] => None
          end
      end
  end
with read_members (fuel : nat) (depth : N) (s : bytes) : option (list (bytes * jval) * bytes) :=
  match fuel with
  | O => None
  | S f =>
      match skip_blank s with
      | q :: s1 =>
          if negb (code q =? 34) then None
          else match read_string s1 with
               | None => None
               | Some (k, r) =>
                   match skip_blank r with
                   | c :: r1 =>
                       if negb (code c =? 58) then None
                       else match read_value f depth (skip_blank r1) with
                            | None => None
                            | Some (v, r2) =>
                                match skip_blank r2 with
                                | e :: r3 =>
                                    if code e =? 44 then
                                      match read_members f depth r3 with
                                      | Some (ms, rest) => Some ((k, v) :: ms, rest)
                                      | None => None
                                      end
                                    else if code e =? 125 then Some ([(k, v)], r3) else None
                                | [] => None
                                end
                            end
                   | [] => None
                   end
               end
      | [] => None
      end
  end.

(** [Decoder.Decode] of a body into a map: the first value is read and what follows it is
    not; null makes the map nil; other values are errors.  The members are stored in the
    order of the text. *)
Definition to_map (ms : list (bytes * jval)) : list (bytes * jval) :=
  fold_left (fun m kv => aset (fst kv) (snd kv) m) ms [].
Definition decode_object (body : bytes) : option (list (bytes * jval)) :=
  match skip_blank body with
  | b :: s1 =>
      if code b =? 123 then
        match skip_blank s1 with
        | c :: _ => if code c =? 125 then Some []
                    else match read_members (S (S (2 * List.length s1))) 1 s1 with
                         | Some (ms, _) => Some (to_map ms)
                         | None => None
                         end
        | [] => None
        end
      else match after (str "null") (b :: s1) with Some _ => Some [] | None => None end
  | [] => None
  end.

(** What [HttpClient.Do] gives: an error, or a status and a body that can be read to its
    end. *)
Inductive reply := NoReply | Reply (status : N) (body : bytes).
Definition answer_of (r : reply) : answer :=
  match r with
  | NoReply => NoAnswer
  | Reply status body => match decode_object body with Some o => Answer status o | None => NotJson end
  end.

(** The other side answers with bodies. *)
Definition ask_bytes {World : Type} (wire : outreq -> World -> reply * World) (r : outreq) (w : World) : answer * World :=
  let (p, w') := wire r w in (answer_of p, w').
End Decoder.
