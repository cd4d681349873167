(** Go strings as byte lists: UTF-8 decoding and the functions of packages
    [strings] and [unicode/utf8] that /repo/sttp/data/ExpressionTree.go calls.
    These are standard-library functions, written from their documentation;
    no function of /repo is modelled in this file. *)
From Verif Require Import Base.

(** utf8.RuneError, U+FFFD. *)
Definition RuneError : Z := 65533.

Definition is_cont (b : Z) : bool := (128 <=? b) && (b <=? 191).

(** [range s] / [[]rune(s)]: the runes of a string, each with the bytes it was
    decoded from.  A byte that starts no well-formed sequence is one RuneError. *)
Fixpoint decode (s : bytes) : list (Z * bytes) :=
  match s with
  | [] => []
  | b0 :: s1 =>
    if b0 <? 128 then (b0, [b0]) :: decode s1
    else if (194 <=? b0) && (b0 <=? 223) then
      match s1 with
      | b1 :: s2 =>
        if is_cont b1
        then ((b0 - 192) * 64 + (b1 - 128), [b0; b1]) :: decode s2
        else (RuneError, [b0]) :: decode s1
      | [] => (RuneError, [b0]) :: decode s1
      end
    else if (224 <=? b0) && (b0 <=? 239) then
      match s1 with
      | b1 :: (b2 :: s3) =>
        if ((if b0 =? 224 then 160 else 128) <=? b1) && (b1 <=? (if b0 =? 237 then 159 else 191)) && is_cont b2
        then ((b0 - 224) * 4096 + (b1 - 128) * 64 + (b2 - 128), [b0; b1; b2]) :: decode s3
        else (RuneError, [b0]) :: decode s1
      | _ => (RuneError, [b0]) :: decode s1
      end
    else if (240 <=? b0) && (b0 <=? 244) then
      match s1 with
      | b1 :: (b2 :: (b3 :: s4)) =>
        if ((if b0 =? 240 then 144 else 128) <=? b1) && (b1 <=? (if b0 =? 244 then 143 else 191))
           && is_cont b2 && is_cont b3
        then ((b0 - 240) * 262144 + (b1 - 128) * 4096 + (b2 - 128) * 64 + (b3 - 128), [b0; b1; b2; b3]) :: decode s4
        else (RuneError, [b0]) :: decode s1
      | _ => (RuneError, [b0]) :: decode s1
      end
    else (RuneError, [b0]) :: decode s1
  end.

Definition runes_of (s : bytes) : list Z := map fst (decode s).

(** A rune that utf8 encodes as itself. *)
Definition valid_rune (r : Z) : bool :=
  (0 <=? r) && (r <=? 1114111) && negb ((55296 <=? r) && (r <=? 57343)).

(** utf8.AppendRune: runes that are not valid are written as U+FFFD. *)
Definition encode_rune (r : Z) : bytes :=
  if negb (valid_rune r) then [239; 191; 189]
  else if r <? 128 then [r]
  else if r <? 2048 then [192 + r / 64; 128 + r mod 64]
  else if r <? 65536 then [224 + r / 4096; 128 + (r / 64) mod 64; 128 + r mod 64]
  else [240 + r / 262144; 128 + (r / 4096) mod 64; 128 + (r / 64) mod 64; 128 + r mod 64].

Definition encode_runes (rs : list Z) : bytes := flat_map encode_rune rs.

(** strings.HasPrefix *)
Fixpoint HasPrefix (s t : bytes) : bool :=
  match t, s with
  | [], _ => true
  | _ :: _, [] => false
  | y :: t', x :: s' => (x =? y) && HasPrefix s' t'
  end.

(** strings.HasSuffix *)
Definition HasSuffix (s t : bytes) : bool := HasPrefix (rev s) (rev t).

(** strings.Index: first byte offset at which t occurs in s, or -1. *)
Fixpoint Index (s t : bytes) : Z :=
  if HasPrefix s t then 0
  else match s with
       | [] => -1
       | _ :: s' => let i := Index s' t in if i =? -1 then -1 else i + 1
       end.

(** strings.LastIndex *)
Fixpoint LastIndex (s t : bytes) : Z :=
  match s with
  | [] => if HasPrefix [] t then 0 else -1
  | _ :: s' =>
    let i := LastIndex s' t in
    if negb (i =? -1) then i + 1 else if HasPrefix s t then 0 else -1
  end.

(** strings.Contains *)
Definition Contains (s t : bytes) : bool := negb (Index s t =? -1).

(** strings.Count for a non-empty t: non-overlapping occurrences found from the
    left; [skip] bytes of the current occurrence remain to be passed over. *)
Fixpoint count_from (s t : bytes) (skip : nat) : Z :=
  match s with
  | [] => 0
  | _ :: s' =>
    match skip with
    | S k => count_from s' t k
    | O => if HasPrefix s t then 1 + count_from s' t (length t - 1) else count_from s' t O
    end
  end.
Definition Count (s t : bytes) : Z :=
  match t with
  | [] => len (decode s) + 1
  | _ => count_from s t O
  end.

(** strings.ReplaceAll: an empty old string matches before every rune and at
    the end. *)
Fixpoint replace_from (s t r : bytes) (skip : nat) : bytes :=
  match s with
  | [] => []
  | x :: s' =>
    match skip with
    | S k => replace_from s' t r k
    | O => if HasPrefix s t then r ++ replace_from s' t r (length t - 1) else x :: replace_from s' t r O
    end
  end.
Definition ReplaceAll (s t r : bytes) : bytes :=
  match t with
  | [] => flat_map (fun c => r ++ snd c) (decode s) ++ r
  | _ => replace_from s t r O
  end.

(** The order of Go strings, [<] on their bytes. *)
Fixpoint str_ltb (s t : bytes) : bool :=
  match s, t with
  | _, [] => false
  | [], _ :: _ => true
  | x :: s', y :: t' => if x <? y then true else if y <? x then false else str_ltb s' t'
  end.

Fixpoint str_eqb (s t : bytes) : bool :=
  match s, t with
  | [], [] => true
  | x :: s', y :: t' => (x =? y) && str_eqb s' t'
  | _, _ => false
  end.

(** strings.Compare *)
Definition str_compare (s t : bytes) : Z :=
  if str_eqb s t then 0 else if str_ltb s t then -1 else 1.

(** unicode.IsSpace *)
Definition rune_is_space (r : Z) : bool :=
  ((9 <=? r) && (r <=? 13)) || (r =? 32) || (r =? 133) || (r =? 160) || (r =? 5760)
  || ((8192 <=? r) && (r <=? 8202)) || (r =? 8232) || (r =? 8233) || (r =? 8239) || (r =? 8287) || (r =? 12288).

Fixpoint drop_while {A} (p : A -> bool) (l : list A) : list A :=
  match l with
  | [] => []
  | x :: l' => if p x then drop_while p l' else l
  end.

(** strings.TrimLeftFunc, strings.TrimRightFunc on runes. *)
Definition trim_left_by (p : Z -> bool) (s : bytes) : bytes :=
  concat (map snd (drop_while (fun c => p (fst c)) (decode s))).
Definition trim_right_by (p : Z -> bool) (s : bytes) : bytes :=
  concat (map snd (rev (drop_while (fun c => p (fst c)) (rev (decode s))))).

(** strings.TrimSpace *)
Definition str_TrimSpace (s : bytes) : bytes :=
  trim_right_by rune_is_space (trim_left_by rune_is_space s).

(** strings.ContainsRune(chars, r): a rune of the decoded cutset; U+FFFD is
    found in a cutset with bytes that are not UTF-8. *)
Definition in_cutset (cutset : bytes) (r : Z) : bool :=
  existsb (fun c => r =? c) (runes_of cutset).
(** strings.TrimLeft, strings.TrimRight *)
Definition str_TrimLeft (s cutset : bytes) : bytes := trim_left_by (in_cutset cutset) s.
Definition str_TrimRight (s cutset : bytes) : bytes := trim_right_by (in_cutset cutset) s.

(** ASCII case mapping, the part of the Unicode mapping that is fixed here. *)
Definition ascii_upper (c : Z) : Z := if (97 <=? c) && (c <=? 122) then c - 32 else c.
Definition ascii_lower (c : Z) : Z := if (65 <=? c) && (c <=? 90) then c + 32 else c.
