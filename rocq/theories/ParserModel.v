(** Model of libff/parser.py (parsing of token lists, optimiser) and
    libff/filter.py (Matcher, Excluder). *)
From Coq Require Import List Bool NArith ZArith.
From Verif Require Import Py SortLib.
Import ListNotations.

(** libff/parser.py:37-58, the classes AND, OR and NOT. *)
Inductive kind := KAnd | KOr | KNot.

Section Parser.
  (** The type of Test objects (libff/parser.py:61-84). *)
  Variable T : Type.

  (** Elements of a test sequence: a Test object or a nested list object. *)
  Inductive node :=
  | Leaf (t : T)
  | Sub (k : kind) (l : list node).

  (** libff/parser.py:91-92 *)
  Definition OPENING_BRACKETS : list str := [$"("; $"{{"].
  Definition CLOSING_BRACKETS : list str := [$")"; $"}}"].

  Definition is_nil {A} (l : list A) : bool := match l with [] => true | _ => false end.

  (** The method [parse_test] (libff/parser.py:168-187) is a parameter of the
      token list parser; [ExprModel.parse_test] is its model. *)
  Variable parse_test : str -> res T.

  (** A list object [sequences] (an OR or a NOT) under construction.  It is
      never empty; [(d, c)] stands for the AND objects [d ++ [c]], so
      [sequences[-1]] is [c]. *)
  Definition seqs : Type := (list (list node) * list node)%type.

  (** An OR or NOT object with its AND elements. *)
  Definition close_seqs (k : kind) (s : seqs) : node :=
    Sub k (map (Sub KAnd) (fst s ++ [snd s])).

  (** libff/parser.py:119-166 (parse_sequence) and 189-198
      (parse_bracket_sequence, inlined at its two call sites).  The token list
      [self.tokens] is threaded through.  The recursion of the Python code
      (loop plus nested calls) consumes tokens; [fuel] bounds its depth and is
      proved sufficient ([parse_sequence_fuel]).  Python's recursion limit is
      not modelled. *)
  Fixpoint parse_sequence (fuel : nat) (tokens : list str) (d : list (list node)) (c : list node)
    : res (list str * seqs) :=
    match fuel with
    | O => Err OutOfFuel
    | S fuel =>
      match tokens with
      | [] =>
          (* 165-166 *)
          if negb (is_nil d) && existsb is_nil (d ++ [c]) then Err ParserError
          else Ok ([], (d, c))
      | token :: tokens =>
          let utoken := upper token in
          if str_in token OPENING_BRACKETS then
            do '(tokens', sub) <- parse_sequence fuel tokens [] [];
            match tokens' with
            | [] => Err ParserError
            | _ :: tokens'' => parse_sequence fuel tokens'' d (c ++ [close_seqs KOr sub])
            end
          else if str_in token CLOSING_BRACKETS then
            if is_nil c then Err ParserError
            else Ok (token :: tokens, (d, c))
          else if str_eqb utoken ($"AND") then parse_sequence fuel tokens d c
          else if str_eqb utoken ($"OR") then parse_sequence fuel tokens (d ++ [c]) []
          else if str_eqb utoken ($"NOT") then
            match tokens with
            | [] => Err ParserError
            | next :: tokens' =>
                let utoken := upper next in
                if str_in utoken OPENING_BRACKETS then
                  do '(tokens'', sub) <- parse_sequence fuel tokens' [] [];
                  match tokens'' with
                  | [] => Err ParserError
                  | _ :: tokens''' => parse_sequence fuel tokens''' d (c ++ [close_seqs KNot sub])
                  end
                else if str_in utoken ([$"AND"; $"OR"; $"NOT"] ++ CLOSING_BRACKETS) then
                  Err ParserError
                else
                  do t <- parse_test next;
                  parse_sequence fuel tokens' d (c ++ [Sub KNot [Sub KAnd [Leaf t]]])
            end
          else
            do t <- parse_test token;
            parse_sequence fuel tokens d (c ++ [Leaf t])
      end
    end.

  (** libff/parser.py:110-117; the result is the list of AND objects of the
      outermost OR. *)
  Definition parse (tokens : list str) : res (list node) :=
    do '(rest, s) <- parse_sequence (S (length tokens)) tokens [] [];
    match rest with
    | [] => Ok (map (Sub KAnd) (fst s ++ [snd s]))
    | _ => Err ParserError
    end.

  (** libff/parser.py:216-223, [score] is Registry.get_plugin_speed
      (libff/registry.py:300-303) of the attribute of the test. *)
  Variable score : T -> Z.
  Fixpoint get_speed_score (n : node) : Z :=
    match n with
    | Leaf t => score t
    | Sub _ l => fold_right Z.add 0%Z (map get_speed_score l)
    end.

  (** libff/parser.py:225-233: sort the list, then recurse into the elements
      that are lists.  The keys only depend on the multiset of the leaves, so
      recursing first and sorting the results afterwards gives the same list
      ([optimize_key]); this order makes the recursion structural. *)
  Fixpoint optimize_node (n : node) : node :=
    match n with
    | Leaf t => Leaf t
    | Sub k l => Sub k (sort_by get_speed_score (map optimize_node l))
    end.
  Definition optimize (l : list node) : list node :=
    sort_by get_speed_score (map optimize_node l).

  (** Evaluating the attribute of a Test on an entry: the boolean returned by
      Type.test, a KeyError (attribute missing), or another exception. *)
  Inductive outcome := Val (b : bool) | Missing | Raise (e : exc).
  (** registry.get_attribute_and_type followed by type_cls.test, for one fixed
      entry (libff/filter.py:129,135 and 80,87). *)
  Variable run_test : T -> outcome.

  (** libff/filter.py:107-135.  [any]/[all] consume the generator lazily, so
      evaluation stops at the first decisive element; an exception
      propagates. *)
  Fixpoint eval (n : node) : res bool :=
    match n with
    | Leaf t =>
        match run_test t with
        | Val b => Ok b
        | Missing => Ok false
        | Raise e => Err e
        end
    | Sub KAnd l =>
        (fix all (l : list node) : res bool :=
           match l with
           | [] => Ok true
           | x :: r => do b <- eval x; if b then all r else Ok false
           end) l
    | Sub k l =>
        do b <- (fix any (l : list node) : res bool :=
                   match l with
                   | [] => Ok false
                   | x :: r => do b <- eval x; if b then Ok true else any r
                   end) l;
        Ok (match k with KNot => negb b | _ => b end)
    end.

  (** libff/filter.py:51-54: chain.from_iterable over the AND objects. *)
  Definition flat (seq : list node) : list node :=
    flat_map (fun n => match n with Sub _ l => l | Leaf _ => [] end) seq.
  Definition is_empty (seq : list node) : bool := is_nil (flat seq).

  (** Parser.__init__ (libff/parser.py:99-105) followed by Matcher.test
      (libff/filter.py:44-49, 98-111) for one entry. *)
  Definition matcher (tokens : list str) : res bool :=
    do seq <- parse tokens;
    let seq := optimize seq in
    if is_empty seq then Ok true else eval (Sub KOr seq).

  (** Excluder.test (libff/filter.py:65-90) for one entry.  The elements of
      the AND objects are treated as Test objects; a nested list object has no
      attribute [attribute] (AttributeError). *)
  Fixpoint exclude_loop (l : list node) : res bool :=
    match l with
    | [] => Ok false
    | Leaf t :: r =>
        match run_test t with
        | Val true => Ok true
        | Val false => exclude_loop r
        | Missing => exclude_loop r
        | Raise e => Err e
        end
    | Sub _ _ :: _ => Err AttributeErr
    end.
  Definition excluder (tokens : list str) : res bool :=
    do seq <- parse tokens;
    let seq := optimize seq in
    if is_empty seq then Ok false else exclude_loop (flat seq).
End Parser.

Arguments Leaf {T} t.
Arguments Sub {T} k l.
Arguments parse {T} parse_test tokens.
Arguments parse_sequence {T} parse_test fuel tokens d c.
Arguments get_speed_score {T} score n.
Arguments optimize_node {T} score n.
Arguments optimize {T} score l.
Arguments eval {T} run_test n.
Arguments flat {T} seq.
Arguments is_empty {T} seq.
Arguments matcher {T} parse_test score run_test tokens.
Arguments excluder {T} parse_test score run_test tokens.
Arguments exclude_loop {T} run_test l.
Arguments close_seqs {T} k s.
