(** regexp.MustCompile("(?i)" + regexp.QuoteMeta(t)).ReplaceAllString(s, r) of the
    standard library, as ExpressionTree.go:2257-2264 uses it, for texts in ASCII: the
    pattern is the text t in any letter case, matches are taken from left to right
    without overlap, an empty one before every character and at the end, and r is a
    template ([expand] in regexp/regexp.go) in which a dollar sign is special. *)
From Coq Require Import Bool.
From Verif Require Import Base StrModel.
Open Scope list_scope.
Open Scope Z_scope.

Definition all_ascii (s : bytes) : bool := forallb (fun c => (0 <=? c) && (c <? 128)) s.
(** The characters of a name in a template *)
Definition template_char (c : Z) : bool :=
  ((97 <=? c) && (c <=? 122)) || ((65 <=? c) && (c <=? 90)) || ((48 <=? c) && (c <=? 57)) || (c =? 95).
Fixpoint template_name (s : bytes) : bytes * bytes :=
  match s with
  | c :: s' => if template_char c then let (n, r) := template_name s' in (c :: n, r) else ([], s)
  | [] => ([], [])
  end.
(** regexp.extract after a dollar sign: whether the name is 0, the match as a whole,
    and what follows; None for a malformed one.  The pattern has no groups. *)
Definition template_extract (s : bytes) : option (bool * bytes) :=
  let (brace, s) := match s with 123 :: s' => (true, s') | _ => (false, s) end in
  let (name, rest) := template_name s in
  match name with
  | [] => None
  | _ =>
    let whole := match name with [48] => true | _ => false end in
    if brace : bool then match rest with 125 :: rest => Some (whole, rest) | _ => None end
    else Some (whole, rest)
  end.
(** regexp.expand; every step takes a character. *)
Fixpoint expand (fuel : nat) (template m : bytes) : bytes :=
  match fuel, template with
  | S f, 36 :: rest =>
    match rest with
    | 36 :: rest => 36 :: expand f rest m
    | _ => match template_extract rest with
           | Some (whole, rest) => (if whole : bool then m else []) ++ expand f rest m
           | None => 36 :: expand f rest m
           end
    end
  | S f, c :: rest => c :: expand f rest m
  | _, _ => []
  end.
Definition Expand (template m : bytes) : bytes := expand (length template) template m.

(** Whether s begins with t in any letter case *)
Fixpoint HasPrefixFold (s t : bytes) : bool :=
  match s, t with
  | _, [] => true
  | [], _ => false
  | x :: s, y :: t => (ascii_upper x =? ascii_upper y) && HasPrefixFold s t
  end.
Fixpoint fold_from (s t r : bytes) (skip : nat) : bytes :=
  match s with
  | [] => []
  | x :: s' =>
    match skip with
    | S k => fold_from s' t r k
    | O => if HasPrefixFold s t then Expand r (firstn (length t) s) ++ fold_from s' t r (length t - 1) else x :: fold_from s' t r O
    end
  end.
Definition ReplaceFold (s t r : bytes) : bytes :=
  match t with
  | [] => flat_map (fun c => Expand r [] ++ [c]) s ++ Expand r []
  | _ => fold_from s t r O
  end.
