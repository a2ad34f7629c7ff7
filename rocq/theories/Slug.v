(** * Slug: metatab.util.slugify (metatab/util.py:40-52) *)

From Verif Require Export PyStr.

(** unicodedata.normalize('NFKD', c).encode('ascii', 'ignore') for one Latin-1
    code point; generated from CPython 3.11's unicodedata (util.py:49).  The
    normal form of a Latin-1 string is the concatenation of those of its code
    points (none of them combines with another). *)
Definition ascii_fold (c : ascii) : string :=
  let n := nat_of_ascii c in
  if n <? 128 then String c ""
  else
  if (n =? 160) || (n =? 168) || (n =? 175) || (n =? 180) || (n =? 184) then " " else
  if (n =? 170) || (n =? 224) || (n =? 225) || (n =? 226) || (n =? 227) || (n =? 228) || (n =? 229) then "a" else
  if (n =? 178) then "2" else
  if (n =? 179) then "3" else
  if (n =? 185) then "1" else
  if (n =? 186) || (n =? 242) || (n =? 243) || (n =? 244) || (n =? 245) || (n =? 246) then "o" else
  if (n =? 188) then "14" else
  if (n =? 189) then "12" else
  if (n =? 190) then "34" else
  if (n =? 192) || (n =? 193) || (n =? 194) || (n =? 195) || (n =? 196) || (n =? 197) then "A" else
  if (n =? 199) then "C" else
  if (n =? 200) || (n =? 201) || (n =? 202) || (n =? 203) then "E" else
  if (n =? 204) || (n =? 205) || (n =? 206) || (n =? 207) then "I" else
  if (n =? 209) then "N" else
  if (n =? 210) || (n =? 211) || (n =? 212) || (n =? 213) || (n =? 214) then "O" else
  if (n =? 217) || (n =? 218) || (n =? 219) || (n =? 220) then "U" else
  if (n =? 221) then "Y" else
  if (n =? 231) then "c" else
  if (n =? 232) || (n =? 233) || (n =? 234) || (n =? 235) then "e" else
  if (n =? 236) || (n =? 237) || (n =? 238) || (n =? 239) then "i" else
  if (n =? 241) then "n" else
  if (n =? 249) || (n =? 250) || (n =? 251) || (n =? 252) then "u" else
  if (n =? 253) || (n =? 255) then "y" else
  "".

(** util.py:49 *)
Fixpoint fold_ascii (s : string) : string :=
  match s with
  | "" => ""
  | String c s' => (ascii_fold c ++ fold_ascii s')%string
  end.

(** the class [\w\s\-\.] of util.py:50 on ASCII *)
Definition slug_word (c : ascii) : bool :=
  let n := nat_of_ascii c in
  ((97 <=? n) && (n <=? 122)) || ((65 <=? n) && (n <=? 90)) || ((48 <=? n) && (n <=? 57)) || (n =? 95).
Definition slug_dash (c : ascii) : bool := Ascii.eqb c "-" || isspace c.
Definition slug_keep (c : ascii) : bool := slug_word c || slug_dash c || Ascii.eqb c ".".

Fixpoint filter_str (f : ascii -> bool) (s : string) : string :=
  match s with
  | "" => ""
  | String c s' => if f c then String c (filter_str f s') else filter_str f s'
  end.

(** util.py:51: re.sub(r'[-\s]+', '-', s); [prev]: the previous character was
    part of a run *)
Fixpoint squeeze (prev : bool) (s : string) : string :=
  match s with
  | "" => ""
  | String c s' =>
      if slug_dash c then (if prev then squeeze true s' else String "-" (squeeze true s'))
      else String c (squeeze false s')
  end.

(** util.py:40-52 slugify, on a str *)
Definition slugify (s : string) : string :=
  squeeze false (filter_str slug_keep (lower (strip (fold_ascii s)))).
