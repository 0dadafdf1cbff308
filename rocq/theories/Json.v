(** * The JSON text of [parameters.ini] and of [units_dictionary.cache]

    [json.dump] (json/encoder.py, [ensure_ascii], default separators) and
    [json.load] (json/decoder.py, json/scanner.py) of the Python standard library,
    as called in parameters.py:78, 96, 117, 152, 154, database.py:829 and dictionaries.py:593.

    A float is represented by the text [float.__repr__] gives it ([float(repr(x)) == x]
    is a fact about CPython); tuples and lists are the same value, as they are the same
    text.  Not modelled: the limits on the digits of an [int] and on the nesting. *)
From Coq Require Import String.
From Verif Require Import Py.
Local Open Scope N_scope.

(** the Python objects json knows: what [json_dump] of parameters.py:152 and database.py:829 gets and [json_load] of parameters.py:78, dictionaries.py:593 returns; tuple = list *)
Inductive jval :=
| JNull | JBool (b : bool) | JInt (z : Z) | JFlt (t : str) | JStr (s : str)
| JArr (l : list jval) | JObj (l : list (str * jval))
| JOther.   (* an object that json.dump does not know: it raises TypeError *)

(** ** Writing: encoder.py *)
(** json/encoder.py [py_encode_basestring_ascii]: a hexadecimal digit of the format 04x *)
Definition hexd (n : N) : chr := if n <? 10 then 48 + n else 87 + n.
(** json/encoder.py [py_encode_basestring_ascii]: the format 04x *)
Definition hex4 (n : N) : str := [hexd (n / 4096 mod 16); hexd (n / 256 mod 16); hexd (n / 16 mod 16); hexd (n mod 16)].
(** encoder.py [py_encode_basestring_ascii] *)
Definition jchar (c : chr) : str :=
  if c =? 92 then [92; 92] else if c =? 34 then [92; 34]
  else if c =? 10 then [92; 110] else if c =? 13 then [92; 114] else if c =? 9 then [92; 116]
  else if c =? 12 then [92; 102] else if c =? 8 then [92; 98]
  else if (32 <=? c) && (c <=? 126) then [c]
  else if c <? 65536 then 92 :: 117 :: hex4 c
  else let v := c - 65536 in
       92 :: 117 :: hex4 (55296 + v / 1024) ++ 92 :: 117 :: hex4 (56320 + v mod 1024).
(** json/encoder.py [py_encode_basestring_ascii]: the whole string, between quotes *)
Definition jquote (s : str) : str := 34 :: flat_map jchar s ++ [34].

(** what has been written, and whether the writing ended (encoder.py [_make_iterencode] yields
    the text piece by piece: what precedes an unknown object is written before the exception) *)
Definition written := (str * bool)%type.
(** model plumbing: a piece of text was written *)
Definition wr (x : str) : written := (x, true).
(** model plumbing: one piece after the other, unless the first was interrupted *)
Definition wcat (a b : written) : written := if snd a then (fst a ++ fst b, snd b) else a.
(** json/encoder.py [_iterencode_list]: the default item separator *)
Fixpoint wjoin (l : list written) : written :=
  match l with
  | [] => wr []
  | [x] => x
  | x :: t => wcat x (wcat (wr (u ", ")) (wjoin t))
  end.
(** json/encoder.py [_iterencode]; the keys are strings *)
Fixpoint jwrite (v : jval) : written :=
  match v with
  | JNull => wr (u "null")
  | JBool true => wr (u "true")
  | JBool false => wr (u "false")
  | JInt z => wr (str_of_Z z)
  | JFlt t => wr t
  | JStr s => wr (jquote s)
  | JArr l => wcat (wr (u "[")) (wcat (wjoin (map jwrite l)) (wr (u "]")))
  | JObj l => wcat (wr (u "{")) (wcat (wjoin (map (fun e => wcat (wr (jquote (fst e) ++ u ": ")) (jwrite (snd e))) l)) (wr (u "}")))
  | JOther => ([], false)
  end.

(** ** Reading: decoder.py, scanner.py *)
(** json/decoder.py WHITESPACE_STR *)
Definition jspace (c : chr) : bool := (c =? 32) || (c =? 9) || (c =? 10) || (c =? 13).
(** json/decoder.py [WHITESPACE.match] *)
Fixpoint skip (s : str) : str := match s with c :: t => if jspace c then skip t else s | [] => [] end.
(** json/decoder.py [_decode_uXXXX]: a hexadecimal digit *)
Definition hexv (c : chr) : option N :=
  if (48 <=? c) && (c <=? 57) then Some (c - 48)
  else if (97 <=? c) && (c <=? 102) then Some (c - 87)
  else if (65 <=? c) && (c <=? 70) then Some (c - 55) else None.
(** decoder.py [_decode_uXXXX] *)
Definition unhex4 (s : str) : option (N * str) :=
  match s with
  | a :: b :: c :: d :: t =>
      match hexv a, hexv b, hexv c, hexv d with
      | Some a, Some b, Some c, Some d => Some (a * 4096 + b * 256 + c * 16 + d, t)
      | _, _, _, _ => None
      end
  | _ => None
  end.
(** json/decoder.py [py_scanstring]: 0xd800 <= uni <= 0xdbff *)
Definition is_high (n : N) : bool := (55296 <=? n) && (n <=? 56319).
(** json/decoder.py [py_scanstring]: 0xdc00 <= uni2 <= 0xdfff *)
Definition is_low (n : N) : bool := (56320 <=? n) && (n <=? 57343).
(** one escape, after the backslash *)
(** json/decoder.py [py_scanstring]: one escape, after the backslash (BACKSLASH table and surrogate pairs) *)
Definition unescape (s : str) : option (chr * str) :=
  match s with
  | [] => None
  | c :: t =>
      if c =? 117 then
        match unhex4 t with
        | None => None
        | Some (n, r) =>
            if is_high n then
              match r with
              | 92 :: 117 :: r' =>
                  match unhex4 r' with
                  | None => None
                  | Some (m, r'') => if is_low m then Some (65536 + (n - 55296) * 1024 + (m - 56320), r'') else Some (n, r)
                  end
              | _ => Some (n, r)
              end
            else Some (n, r)
        end
      else if c =? 34 then Some (34, t) else if c =? 92 then Some (92, t) else if c =? 47 then Some (47, t)
      else if c =? 98 then Some (8, t) else if c =? 102 then Some (12, t) else if c =? 110 then Some (10, t)
      else if c =? 114 then Some (13, t) else if c =? 116 then Some (9, t) else None
  end.
(** decoder.py [py_scanstring], strict; the fuel is the length of the text *)
Fixpoint scanstring (n : nat) (s : str) : option (str * str) :=
  match n with
  | O => None
  | S n' =>
      match s with
      | [] => None
      | c :: t =>
          if c =? 34 then Some ([], t)
          else if c =? 92 then
            match unescape t with
            | Some (d, r) => option_map (fun p : str * str => (d :: fst p, snd p)) (scanstring n' r)
            | None => None
            end
          else if c <? 32 then None
          else option_map (fun p : str * str => (c :: fst p, snd p)) (scanstring n' t)
      end
  end.

(** json/scanner.py NUMBER_RE: the longest run of ASCII digits *)
Fixpoint digits (s : str) : str * str :=
  match s with c :: t => if is_dec c then let (a, b) := digits t in (c :: a, b) else ([], s) | [] => ([], []) end.
(** scanner.py [NUMBER_RE]: a sign, zero or a number, an optional fraction, an optional exponent *)
Definition intpart (s : str) : option (str * str) :=
  match s with
  | c :: t => if c =? 48 then Some ([48], t) else if is_dec c then Some (digits s) else None
  | [] => None
  end.
(** json/scanner.py NUMBER_RE, second group *)
Definition fracpart (s : str) : str * str :=
  match s with
  | 46 :: t => let (a, b) := digits t in match a with [] => ([], s) | _ => (46 :: a, b) end
  | _ => ([], s)
  end.
(** json/scanner.py NUMBER_RE, third group *)
Definition exppart (s : str) : str * str :=
  match s with
  | c :: t =>
      if (c =? 101) || (c =? 69) then
        let '(sg, t') := match t with d :: t' => if (d =? 43) || (d =? 45) then ([d], t') else ([], t) | [] => ([], t) end in
        let (a, b) := digits t' in match a with [] => ([], s) | _ => (c :: sg ++ a, b) end
      else ([], s)
  | [] => ([], s)
  end.
(** json/scanner.py NUMBER_RE: the sign *)
Definition sgn (s : str) : str * str := match s with 45 :: t => ([45], t) | _ => ([], s) end.
(** json/scanner.py [_scan_once]: int when there is neither fraction nor exponent *)
Definition scannum (s : str) : option (jval * str) :=
  let '(sg, t) := sgn s in
  match intpart t with
  | None => None
  | Some (i, r) =>
      let (f, r1) := fracpart r in let (e, r2) := exppart r1 in
      Some (match f, e with
            | [], [] => JInt (match sg with [] => Z.of_N (dec_val 0 i) | _ => - Z.of_N (dec_val 0 i) end)
            | _, _ => JFlt (sg ++ i ++ f ++ e)
            end, r2)
  end.

(** a Python dict: an assignment to an old key keeps its place *)
Fixpoint oset (k : str) (v : jval) (l : list (str * jval)) : list (str * jval) :=
  match l with
  | [] => [(k, v)]
  | (k', v') :: t => if seqb k k' then (k', v) :: t else (k', v') :: oset k v t
  end.
(** Python's dict lookup, parameters.py:97 and alike *)
Fixpoint oget (k : str) (l : list (str * jval)) : option jval :=
  match l with [] => None | (k', v) :: t => if seqb k k' then Some v else oget k t end.

(** json/scanner.py [_scan_once]: a fixed word *)
Definition word (w : string) (v : jval) (s : str) : option (jval * str) :=
  if sprefix (u w) s then Some (v, skipn (length (u w)) s) else None.
(** model plumbing: the next case of an if-elif chain *)
Definition orelse {X} (a b : option X) : option X := match a with Some _ => a | None => b end.
(** scanner.py [py_make_scanner], without the brackets *)
Definition scan_plain (s : str) : option (jval * str) :=
  orelse (word "null" JNull s) (orelse (word "true" (JBool true) s) (orelse (word "false" (JBool false) s)
  (orelse (scannum s)
  (orelse (word "NaN" (JFlt (u "NaN")) s) (orelse (word "Infinity" (JFlt (u "Infinity")) s) (word "-Infinity" (JFlt (u "-Infinity")) s)))))).

(** model plumbing: a failed scan is JSONDecodeError, a ValueError *)
Definition jok {X} (o : option X) : res X := match o with Some x => Ok x | None => Err ValueError end.
(** json/scanner.py [_scan_once]: the next character *)
Definition starts (c : chr) (s : str) : option str := match s with x :: t => if x =? c then Some t else None | [] => None end.
(** scanner.py [_scan_once], decoder.py [JSONArray] and [JSONObject]; the recursion has a fuel *)
Fixpoint scan (n : nat) (s : str) : res (jval * str) :=
  match n with
  | O => Err OutOfFuel
  | S n' =>
      match starts 34 s with
      | Some t => rbind (jok (scanstring (length t) t)) (fun p => Ok (JStr (fst p), snd p))
      | None =>
      match starts 91 s with
      | Some t =>
          match starts 93 (skip t) with
          | Some r => Ok (JArr [], r)
          | None => rbind (elements n' (skip t) []) (fun p => Ok (JArr (fst p), snd p))
          end
      | None =>
      match starts 123 s with
      | Some t =>
          match starts 125 (skip t) with
          | Some r => Ok (JObj [], r)
          | None => rbind (members n' (skip t) []) (fun p => Ok (JObj (fst p), snd p))
          end
      | None => jok (scan_plain s)
      end end end
  end
with elements (n : nat) (s : str) (acc : list jval) : res (list jval * str) :=
  match n with
  | O => Err OutOfFuel
  | S n' =>
      match scan n' s with
      | Err e => Err e
      | Ok (v, r) =>
          match starts 93 (skip r) with
          | Some r' => Ok (acc ++ [v], r')
          | None =>
          match starts 44 (skip r) with
          | Some r' => elements n' (skip r') (acc ++ [v])
          | None => Err ValueError
          end end
      end
  end
with members (n : nat) (s : str) (acc : list (str * jval)) : res (list (str * jval) * str) :=
  match n with
  | O => Err OutOfFuel
  | S n' =>
      match starts 34 s with
      | None => Err ValueError
      | Some t =>
      match scanstring (length t) t with
      | None => Err ValueError
      | Some (k, r) =>
      match starts 58 (skip r) with
      | None => Err ValueError
      | Some r' =>
          match scan n' (skip r') with
          | Err e => Err e
          | Ok (v, r2) =>
              match starts 125 (skip r2) with
              | Some r3 => Ok (oset k v acc, r3)
              | None =>
              match starts 44 (skip r2) with
              | Some r3 => members n' (skip r3) (oset k v acc)
              | None => Err ValueError
              end end
          end
      end end end
  end.
(** decoder.py [JSONDecoder.decode] *)
Definition jload (s : str) : res jval :=
  match scan (2 * length s + 2) (skip s) with
  | Err e => Err e
  | Ok (v, r) => match skip r with [] => Ok v | _ => Err ValueError end
  end.

(** ** What can be written *)
(** a code point, but the first halves of surrogate pairs *)
(** specification: a code point, but not the first half of a surrogate pair *)
Definition plain_char (c : chr) : Prop := c < 1114112 /\ is_high c = false.
(** the texts of floats *)
(** specification: the texts of finite floats (Python's [float.__repr__]) *)
Definition number_text (t : str) : Prop :=
  exists sg i f e, t = sg ++ i ++ f ++ e /\ (sg = [] \/ sg = [45])
    /\ (i = [48] \/ exists c r, i = c :: r /\ is_dec c = true /\ c <> 48 /\ all_dec r = true)
    /\ (f = [] \/ exists c r, f = 46 :: c :: r /\ all_dec (c :: r) = true)
    /\ (e = [] \/ exists c s d r, e = c :: s ++ d :: r /\ (c = 101 \/ c = 69) /\ (s = [] \/ s = [43] \/ s = [45]) /\ all_dec (d :: r) = true)
    /\ (f <> [] \/ e <> []).
(** specification: the texts of floats (Python's [float.__repr__] and json's names for the others) *)
Definition float_text (t : str) : Prop := number_text t \/ t = u "NaN" \/ t = u "Infinity" \/ t = u "-Infinity".
(** values that have a text of their own *)
(** specification: the values json can write and read back *)
Fixpoint writable (v : jval) : Prop :=
  match v with
  | JNull | JBool _ | JInt _ => True
  | JFlt t => float_text t
  | JStr s => Forall plain_char s
  | JArr l => (fix go l := match l with [] => True | x :: t => writable x /\ go t end) l
  | JObj l => NoDup (map fst l) /\ (fix go l := match l with [] => True | e :: t => (Forall plain_char (fst e) /\ writable (snd e)) /\ go t end) l
  | JOther => False
  end.

Example jload_ex : jload (u " {""a"" : [1, -2.50e+3, true,null] , ""\u00e9\ud83d\ude00\n"": {}}")
  = Ok (JObj [(u "a", JArr [JInt 1; JFlt (u "-2.50e+3"); JBool true; JNull]); ([233; 128512; 10], JObj [])]).
Proof. vm_compute. reflexivity. Qed.
Example jwrite_ex : jwrite (JObj [(u "a", JArr [JInt (-10); JFlt (u "0.997"); JBool true; JNull]); ([233; 128512; 10], JObj [])])
  = (u "{""a"": [-10, 0.997, true, null], ""\u00e9\ud83d\ude00\n"": {}}", true).
Proof. vm_compute. reflexivity. Qed.
