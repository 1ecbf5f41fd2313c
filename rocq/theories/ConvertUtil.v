(** Model of pgsql/convert_util.go.

    Every Go loop [for i := 0; i < len(a); i++] is a structural recursion on
    the suffix [a[i:]].  The extra argument [skip] is the number of bytes that
    an assignment to the loop variable inside the body jumps over (the
    implicit [i++] included).  A read [a[i+k]] past the end is [Panic].
    Where Go distinguishes a nil []byte from an empty one, [option bytes] is
    used; where the callers only look at len, plain [bytes]. *)
From Coq Require Import Ascii String ZArith NArith Bool List.
From Verif Require Import GoBase Strconv.
Import ListNotations.
Local Open Scope char_scope.

Definition dq : ascii := """".
Definition bs : ascii := "\".

(** convert_util.go:19-29 [srcbytes] on the driver's source values: []byte,
    string and nil.  (Values of other dynamic types give nil too, l.28.) *)
Definition srcbytes (s : src) : option bytes := s.

(** convert_util.go:32-56 [pgparsearray2] (after dropping the braces). *)
Fixpoint array2_loop (s : bytes) (skip : nat) : res bytes :=
  match s with
  | [] => Ok []
  | c :: r =>
      match skip with
      | S k => array2_loop r k
      | O =>
          if beq c dq then
            match r with
            | [] => Panic                          (* a[i+1] *)
            | c1 :: r1 =>
                if beq c1 bs then
                  match r1 with
                  | [] => Panic                    (* a[i+2] *)
                  | c2 :: _ => rmap (cons c2) (array2_loop r 3)   (* i += 3; i++ *)
                  end
                else rmap (cons c1) (array2_loop r 2)             (* i += 2; i++ *)
            end
          else if beq c "," then array2_loop r 0
          else rmap (cons c) (array2_loop r 0)
      end
  end.

Definition pgparsearray2 (a : bytes) : res bytes :=
  bind (drop_ends a) (fun a => array2_loop a 0).

(** convert_util.go:59-84 [pgparsearray3] on an already decoded rune list
    ([bytes.Runes] is modelled in Utf8.v). *)
Fixpoint array3_loop (s : list N) (skip : nat) : res (list N) :=
  match s with
  | [] => Ok []
  | c :: r =>
      match skip with
      | S k => array3_loop r k
      | O =>
          if N.eqb c (code dq) then
            match r with
            | [] => Panic
            | c1 :: r1 =>
                if N.eqb c1 (code bs) then
                  match r1 with
                  | [] => Panic
                  | c2 :: _ => rmap (cons c2) (array3_loop r 3)
                  end
                else rmap (cons c1) (array3_loop r 2)
            end
          else if N.eqb c (code ",") then array3_loop r 0
          else rmap (cons c) (array3_loop r 0)
      end
  end.

(** convert_util.go:98-111, the inner loop of [pgparsehstore]: from just after
    an opening quote, unescape up to the closing quote.  Result: bytes
    appended to pair[idx] and number of bytes the outer loop jumps over
    (0 when there is no closing quote: [i] is left alone). *)
Fixpoint hs_quoted (r : bytes) (acc : bytes) (k : nat) : res (bytes * nat) :=
  match r with
  | [] => Ok (acc, O)
  | c :: r' =>
      if beq c bs then
        match r' with
        | [] => Panic                              (* j++; a[j] *)
        | e :: r'' => hs_quoted r'' (acc ++ [e]) (S (S k))
        end
      else if beq c dq then Ok (acc, S k)
      else hs_quoted r' (acc ++ [c]) (S k)
  end.

(** A key/value pair; [[]] is both the nil and the empty slice: pair elements
    are only ever built by [append], so an empty string stays nil. *)
Definition pair := (bytes * bytes)%type.

(** convert_util.go:86-130 [pgparsehstore].  [idx] = 1 iff the next string is
    a value; (k,v) is the current pair. *)
Fixpoint hs_loop (s : bytes) (skip : nat) (idx : bool) (p : pair) : res (list pair) :=
  match s with
  | [] => Ok []
  | c :: r =>
      match skip with
      | S n => hs_loop r n idx p
      | O =>
          if beq c dq then
            bind (hs_quoted r (if idx then snd p else fst p) O) (fun '(str, n) =>
              if idx then rmap (cons (fst p, str)) (hs_loop r n false ([], []))
              else hs_loop r n true (str, snd p))
          else if beq c "N" then
            rmap (cons p) (hs_loop r 4 false ([], []))  (* i += 4; i++ *)
          else hs_loop r 0 idx p
      end
  end.

Definition pgparsehstore (a : bytes) : res (list pair) := hs_loop a 0 false ([], []).

(** convert_util.go:150-165, innermost loop of [pgparsehstorearr]: from just
    after an opening [\"], unescape up to the closing [\"].  [n] counts the
    bytes consumed since the opening [\"]; the result's count includes the
    closing [\"], [None] when there is none. *)
Fixpoint hsa_quoted (fuel : nat) (r : bytes) (acc : bytes) (n : nat) : res (bytes * option nat) :=
  match fuel with
  | O => Ok (acc, None)
  | S fuel' =>
      match r with
      | [] => Ok (acc, None)
      | c :: r' =>
          if beq c bs then
            match r' with
            | [] => Panic                          (* a[k+1] *)
            | c1 :: r1 =>
                if beq c1 bs then
                  match r1 with
                  | _ :: e :: r3 => hsa_quoted fuel' r3 (acc ++ [e]) (4 + n)  (* k += 3; k++ *)
                  | _ => Panic                     (* a[k+3] *)
                  end
                else if beq c1 dq then Ok (acc, Some (2 + n)%nat)
                else hsa_quoted fuel' r' (acc ++ [c]) (S n)
            end
          else hsa_quoted fuel' r' (acc ++ [c]) (S n)
      end
  end.

(** convert_util.go:147-189, the [j] loop of [pgparsehstorearr]; [h] are the
    pairs of the current hstore, [n] the bytes consumed since its opening
    quote.  [fuel] bounds the number of iterations (len(a) suffices).
    Result: the state (idx, pair) that outlives the loop and, when the closing
    quote was reached, the hstore and the consumed length. *)
Fixpoint hsa_hstore (fuel : nat) (r : bytes) (idx : bool) (p : pair) (h : list pair) (n : nat)
  : res ((bool * pair) * option (list pair * nat)) :=
  match fuel with
  | O => Ok ((idx, p), None)
  | S fuel' =>
      match r with
      | [] => Ok ((idx, p), None)
      | c :: r' =>
          (* the part from l.147 to l.176: key or value *)
          let keyval : res (bytes * nat * bool * pair * list pair) :=
            if beq c bs then
              match r' with
              | [] => Panic                        (* a[j+1] *)
              | c1 :: r1 =>
                  if beq c1 dq then
                    bind (hsa_quoted (List.length r1) r1 (if idx then snd p else fst p) 0)
                      (fun '(str, o) =>
                         let adv := match o with Some m => (2 + m)%nat | None => O end in
                         let r_j := skipn adv r in
                         if idx
                         then Ok (r_j, (n + adv)%nat, false, ([], []), h ++ [(fst p, str)])
                         else Ok (r_j, (n + adv)%nat, true, (str, snd p), h))
                  else Ok (r, n, idx, p, h)
              end
            else Ok (r, n, idx, p, h) in
          bind keyval (fun '(r1, n1, idx1, p1, h1) =>
            match r1 with
            | [] => Panic                          (* a[j], l.179 *)
            | d :: _ =>
                let '(r2, n2, idx2, p2, h2) :=
                  if beq d "N" then (skipn 4 r1, (n1 + 4)%nat, false, ([], []), h1 ++ [p1])
                  else (r1, n1, idx1, p1, h1) in
                match r2 with
                | [] => Panic                      (* a[j], l.186 *)
                | e :: r3 =>
                    if beq e dq then Ok ((idx2, p2), Some (h2, S n2))
                    else hsa_hstore fuel' r3 idx2 p2 h2 (S n2)
                end
            end)
      end
  end.

(** convert_util.go:132-199 [pgparsehstorearr]; an element is [None] for an
    array NULL. *)
Fixpoint hsa_loop (s : bytes) (skip : nat) (idx : bool) (p : pair) : res (list (option (list pair))) :=
  match s with
  | [] => Ok []
  | c :: r =>
      match skip with
      | S n => hsa_loop r n idx p
      | O =>
          if beq c dq then
            bind (hsa_hstore (List.length r) r idx p [] 0) (fun '((idx1, p1), o) =>
              match o with
              | Some (h, n) => rmap (cons (Some h)) (hsa_loop r n idx1 p1)
              | None => hsa_loop r 0 idx1 p1
              end)
          else if beq c "N" then rmap (cons None) (hsa_loop r 4 idx p)  (* i += 4; i++ *)
          else hsa_loop r 0 idx p
      end
  end.

Definition pgparsehstorearr (a : bytes) : res (list (option (list pair))) :=
  match a with
  | [] => Ok []
  | _ => bind (drop_ends a) (fun a => hsa_loop a 0 false ([], []))
  end.

(** Split at the first comma. *)
Fixpoint cut (sep : ascii) (s : bytes) : option (bytes * bytes) :=
  match s with
  | [] => None
  | c :: r =>
      if beq c sep then Some ([], r)
      else match cut sep r with
           | Some (x, y) => Some (c :: x, y)
           | None => None
           end
  end.

(** convert_util.go:205-217 [pgParseRange]: both halves nil without a comma. *)
Definition pgParseRange (a : bytes) : res (option bytes * option bytes) :=
  bind (drop_ends a) (fun a =>
    match cut "," a with
    | Some (x, y) => Ok (Some x, Some y)
    | None => Ok (None, None)
    end).

(** convert_util.go:226-237: find the closing quote; the raw (still escaped)
    bytes between the quotes and their number plus one. *)
Fixpoint qsa_quoted (r : bytes) (acc : bytes) : option bytes :=
  match r with
  | [] => None
  | c :: r' =>
      if beq c bs then
        match r' with
        | [] => None
        | e :: r'' => qsa_quoted r'' (acc ++ [c; e])
        end
      else if beq c dq then Some acc
      else qsa_quoted r' (acc ++ [c])
  end.

(** convert_util.go:220-247 [pgParseQuotedStringArray]. *)
Fixpoint qsa_loop (s : bytes) (skip : nat) : list (option bytes) :=
  match s with
  | [] => []
  | c :: r =>
      match skip with
      | S n => qsa_loop r n
      | O =>
          if beq c dq then
            match qsa_quoted r [] with
            | Some str => Some str :: qsa_loop r (List.length str + 2)  (* i = j+1; i++ *)
            | None => qsa_loop r 0
            end
          else if beq c "N" then None :: qsa_loop r 4                   (* i += 4; i++ *)
          else qsa_loop r 0
      end
  end.

Definition pgParseQuotedStringArray (a : bytes) : res (list (option bytes)) :=
  bind (drop_ends a) (fun a => Ok (qsa_loop a 0)).

(** convert_util.go:260-274: a double quoted string, unescaped.  [inl (str, k)]:
    closed after [k] bytes; [inr k]: not closed, [i] was moved [k] bytes on (to
    the last backslash seen). *)
Fixpoint sa_quoted (r : bytes) (str : bytes) (k ib : nat) : (bytes * nat) + nat :=
  match r with
  | [] => inr ib
  | c :: r' =>
      if beq c bs then
        match r' with
        | [] => inr (S k)
        | e :: r'' => sa_quoted r'' (str ++ [e]) (S (S k)) (S k)
        end
      else if beq c dq then inl (str, S k)
      else sa_quoted r' (str ++ [c]) (S k) ib
  end.

(** convert_util.go:283-294: unquoted element up to the next comma. *)
Fixpoint upto (sep : ascii) (r : bytes) : bytes :=
  match r with
  | [] => []
  | c :: r' => if beq c sep then [] else c :: upto sep r'
  end.

(** convert_util.go:250-299 [pgParseStringArray]; [None] is a NULL element. *)
Fixpoint sa_loop (s : bytes) (skip : nat) : list (option bytes) :=
  match s with
  | [] => []
  | c :: r =>
      match skip with
      | S n => sa_loop r n
      | O =>
          if beq c "," then sa_loop r 0
          else if beq c dq then
            match sa_quoted r [] 0 0 with
            | inl (str, k) => Some str :: sa_loop r k
            | inr k => sa_loop r k
            end
          else if has_prefix (B "NULL") s then None :: sa_loop r 3
          else
            let e := upto "," r in
            Some (c :: e) :: sa_loop r (S (List.length e))  (* i = j (the comma); i++ *)
      end
  end.

Definition pgParseStringArray (a : bytes) : res (list (option bytes)) :=
  bind (drop_ends a) (fun a => Ok (sa_loop a 0)).

(** A point's two coordinates; [[]] also stands for a nil slice. *)
Definition pt := (bytes * bytes)%type.

(** The point scanner shared by pgParseLseg (l.314-322), pgParsePointList
    (l.454-463), pgParsePolygonArray (l.486-495) and, with a second closing
    character, pgParsePathArray (l.528-537): from just after the opening
    character; [cur] = a[i+1:j]; [k] bytes consumed, [ik] bytes consumed up to
    the last assignment to the outer index. *)
Fixpoint pt_scan (close : ascii -> bool) (r : bytes) (p0 cur : bytes) (k ik : nat) : pt * nat :=
  match r with
  | [] => ((p0, []), ik)
  | c :: r' =>
      if beq c "," then pt_scan close r' cur [] (S k) (S k)
      else if close c then ((p0, cur), S k)
      else pt_scan close r' p0 (cur ++ [c]) (S k) ik
  end.

Definition rpar (c : ascii) : bool := beq c ")".
Definition rpar_or_rbrack (c : ascii) : bool := beq c "]" || beq c ")".

(** convert_util.go:450-468 [pgParsePointList]. *)
Fixpoint ptlist_loop (s : bytes) (skip : nat) : list pt :=
  match s with
  | [] => []
  | c :: r =>
      match skip with
      | S n => ptlist_loop r n
      | O =>
          if beq c "(" then
            let '(p, n) := pt_scan rpar r [] [] 0 0 in p :: ptlist_loop r n
          else ptlist_loop r 0
      end
  end.

Definition pgParsePointList (a : bytes) : list pt := ptlist_loop a 0.

(** convert_util.go:302-324 [pgParseLseg]: as the point list, but the points go
    into an array of length 2 ([out[n]] panics for a third one). *)
Definition pgParseLseg (a : bytes) : res (pt * pt) :=
  bind (drop_ends a) (fun a =>
    match pgParsePointList a with
    | [] => Ok (([], []), ([], []))
    | [p] => Ok (p, ([], []))
    | [p; q] => Ok (p, q)
    | _ => Panic
    end).

(** convert_util.go:335-350, inner loop of [pgParseLsegArray].
    [first] is n = 0; [cur] = a[i:j]; [k] bytes consumed, [ik] bytes consumed
    up to (not including) the outer index. [skip] as above. *)
Fixpoint lsa_scan (r : bytes) (skip : nat) (first : bool) (l : pt * pt) (cur : bytes) (k ik : nat)
  : (pt * pt) * nat :=
  match r with
  | [] => (l, ik)
  | c :: r' =>
      match skip with
      | S n => (* bytes jumped over by [j += 3]; the last of them is a[i], l.350-353 *)
          lsa_scan r' n first l (match n with O => [c] | _ => [] end) (S k) ik
      | O =>
          let '((x1, y1), (x2, y2)) := l in
          if beq c "," then
            lsa_scan r' 0 first (if first then ((cur, y1), (x2, y2)) else ((x1, y1), (cur, y2))) [] (S k) (S k)
          else if beq c ")" then
            if first
            then lsa_scan r' 3 false ((x1, cur), (x2, y2)) [] (S k) (k + 3)
            else lsa_scan r' 0 false ((x1, y1), (x2, cur)) [c] (S k) k
          else if beq c "]" then (l, k)
          else lsa_scan r' 0 first l (cur ++ [c]) (S k) ik
      end
  end.

Definition lseg0 : pt * pt := (([], []), ([], [])).

(** convert_util.go:327-359 [pgParseLsegArray]. *)
Fixpoint lsa_loop (s : bytes) (skip : nat) : list (pt * pt) :=
  match s with
  | [] => []
  | c :: r =>
      match skip with
      | S n => lsa_loop r n
      | O =>
          if beq c dq then
            (* i += 3: two more bytes of r are jumped over before the scan;
               afterwards i += 2 and i++ *)
            let '(l, k) := lsa_scan (skipn 2 r) 0 true lseg0 [] 0 0 in
            l :: lsa_loop r (2 + k + 3)
          else if beq c "N" then lseg0 :: lsa_loop r 4
          else lsa_loop r 0
      end
  end.

Definition pgParseLsegArray (a : bytes) : res (list (pt * pt)) :=
  bind (drop_ends a) (fun a => Ok (lsa_loop a 0)).

Definition line3 := (bytes * bytes * bytes)%type.
Definition line0 : line3 := ([], [], []).

(** convert_util.go:362-378 [pgParseLine]. *)
Definition pgParseLine (a : bytes) : res line3 :=
  bind (drop_ends a) (fun a =>
    Ok (match cut "," a with
        | None => line0
        | Some (x, r) =>
            match cut "," r with
            | None => (x, [], [])
            | Some (y, z) => (x, y, z)
            end
        end)).

(** convert_util.go:389-399, inner loop of [pgParseLineArray]; [line[n]] panics
    for n >= 3. *)
Fixpoint la_scan (r : bytes) (n : nat) (l : line3) (cur : bytes) (k ik : nat) : res (line3 * nat) :=
  match r with
  | [] => Ok (l, ik)
  | c :: r' =>
      let '(x, y, z) := l in
      if beq c "," then
        match n with
        | 0 => la_scan r' 1 (cur, y, z) [] (S k) (S k)
        | 1 => la_scan r' 2 (x, cur, z) [] (S k) (S k)
        | 2 => la_scan r' 3 (x, y, cur) [] (S k) (S k)
        | _ => Panic
        end
      else if beq c "}" then Ok ((x, y, cur), k)
      else la_scan r' n l (cur ++ [c]) (S k) ik
  end.

(** convert_util.go:381-408 [pgParseLineArray]. *)
Fixpoint la_loop (s : bytes) (skip : nat) : res (list line3) :=
  match s with
  | [] => Ok []
  | c :: r =>
      match skip with
      | S n => la_loop r n
      | O =>
          if beq c dq then
            bind (la_scan (skipn 1 r) 0 line0 [] 0 0) (fun '(l, k) =>
              rmap (cons l) (la_loop r (1 + k + 3)))
          else if beq c "N" then rmap (cons line0) (la_loop r 4)
          else la_loop r 0
      end
  end.

Definition pgParseLineArray (a : bytes) : res (list line3) :=
  bind (drop_ends a) (fun a => la_loop a 0).

(** convert_util.go:411-421 [pgParsePoint]. *)
Definition pgParsePoint (a : bytes) : res pt :=
  bind (drop_ends a) (fun a =>
    Ok (match cut "," a with Some (x, y) => (x, y) | None => ([], []) end)).

(** convert_util.go:429-438, inner loop of [pgParsePointArray]: starts one byte
    later than the other point scanners; the first comma takes a[i+2:j] with
    the original [i], a further comma takes a[i+2:j] with the moved [i], i.e.
    one byte less than since the last comma (panics if that is negative), and
    the closing parenthesis takes a[i+1:j].  [moved] tells whether [i] moved;
    [c0] is the byte after the quote, which is not looked at. *)
Fixpoint pa_scan (c0 : bytes) (r : bytes) (moved : bool) (p0 cur : bytes) (k ik : nat) : res (pt * nat) :=
  match r with
  | [] => Ok ((p0, []), ik)
  | c :: r' =>
      if beq c "," then
        if moved then
          match cur with
          | [] => Panic
          | _ :: t => pa_scan c0 r' true t [] (S k) (S k)
          end
        else pa_scan c0 r' true cur [] (S k) (S k)
      else if beq c ")" then
        Ok ((p0, if moved then cur else c0 ++ cur), S k)
      else pa_scan c0 r' moved p0 (cur ++ [c]) (S k) ik
  end.

(** convert_util.go:424-447 [pgParsePointArray]. *)
Fixpoint pa_loop (s : bytes) (skip : nat) : res (list pt) :=
  match s with
  | [] => Ok []
  | c :: r =>
      match skip with
      | S n => pa_loop r n
      | O =>
          if beq c dq then
            bind (pa_scan (firstn 1 r) (skipn 1 r) false [] [] 0 0) (fun '(p, k) =>
              (* i moved: 1 + k bytes of r are behind it; i += 2 and i++ *)
              rmap (cons p) (pa_loop r ((match k with O => O | _ => 1 + k end) + 2)))
          else if beq c "N" then rmap (cons ([], [])) (pa_loop r 4)
          else pa_loop r 0
      end
  end.

Definition pgParsePointArray (a : bytes) : res (list pt) :=
  bind (drop_ends a) (fun a => pa_loop a 0).

(** convert_util.go:471-474 [pgParsePolygon]. *)
Definition pgParsePolygon (a : bytes) : res (list pt) :=
  bind (drop_ends a) (fun a => Ok (pgParsePointList a)).

(** convert_util.go:483-502 resp. 525-544: the [j] loop of
    [pgParsePolygonArray] / [pgParsePathArray]: points up to the closing quote;
    [None] when there is no closing quote. *)
Fixpoint pla_scan (open close : ascii -> bool) (r : bytes) (skip : nat) (ps : list pt) (k : nat)
  : option (list pt * nat) :=
  match r with
  | [] => None
  | c :: r' =>
      match skip with
      | S n => pla_scan open close r' n ps (S k)
      | O =>
          if open c then
            let '(p, n) := pt_scan close r' [] [] 0 0 in
            pla_scan open close r' n (ps ++ [p]) (S k)
          else if beq c dq then Some (ps, S k)
          else pla_scan open close r' 0 ps (S k)
      end
  end.

Fixpoint pla_loop (open close : ascii -> bool) (s : bytes) (skip : nat) : list (option (list pt)) :=
  match s with
  | [] => []
  | c :: r =>
      match skip with
      | S n => pla_loop open close r n
      | O =>
          if beq c dq then
            match pla_scan open close (skipn 1 r) 0 [] 0 with
            | Some ([], k) => None :: pla_loop open close r (1 + k)   (* nil slice *)
            | Some (ps, k) => Some ps :: pla_loop open close r (1 + k)
            | None => pla_loop open close r 0
            end
          else if beq c "N" then None :: pla_loop open close r 4
          else pla_loop open close r 0
      end
  end.

Definition lpar (c : ascii) : bool := beq c "(".
Definition lpar_or_lbrack (c : ascii) : bool := beq c "(" || beq c "[".

(** convert_util.go:477-509 [pgParsePolygonArray]; [None] = nil slice. *)
Definition pgParsePolygonArray (a : bytes) : res (list (option (list pt))) :=
  bind (drop_ends a) (fun a => Ok (pla_loop lpar rpar a 0)).

(** convert_util.go:512-516 [pgParsePath]. *)
Definition pgParsePath (a : bytes) : res (list pt * bool) :=
  match a with
  | [] => Panic                                   (* a[0] *)
  | c :: _ => bind (drop_ends a) (fun b => Ok (pgParsePointList b, beq c "("))
  end.

(** convert_util.go:519-551 [pgParsePathArray]. *)
Definition pgParsePathArray (a : bytes) : res (list (option (list pt))) :=
  bind (drop_ends a) (fun a => Ok (pla_loop lpar_or_lbrack rpar_or_rbrack a 0)).

(** convert_util.go:557-575 (= 586-604): the element loop of [pgParseBox] and
    [pgParseBoxArray].  [cur] = a[n:i]; [started] = n > 0. *)
Fixpoint box_loop (s : bytes) (skip : nat) (cur : bytes) (started : bool) : res (list bytes) :=
  match s with
  | [] =>
      match skip with
      | O => if started then Ok [cur] else Ok []
      | S _ => Panic                              (* a[n:] with n > len(a) *)
      end
  | c :: r =>
      match skip with
      | S n => box_loop r n [] started
      | O =>
          if beq c "," then rmap (cons cur) (box_loop r 0 [] true)
          else if beq c ")" then rmap (cons cur) (box_loop r 2 [] true)
          else box_loop r 0 (cur ++ [c]) started
      end
  end.

(** convert_util.go:554-576 [pgParseBox]. *)
Definition pgParseBox (a : bytes) : res (list bytes) :=
  bind (drop_ends a) (fun a => box_loop a 0 [] false).

(** convert_util.go:579-605 [pgParseBoxArray]: a[2:len(a)-2]. *)
Definition pgParseBoxArray (a : bytes) : res (list bytes) :=
  if Nat.eqb (List.length a) 2 then Ok []
  else bind (drop_ends a) (fun a => bind (drop_ends a) (fun a => box_loop a 0 [] false)).

(** Splitting at every [sep]. *)
Fixpoint split_on (sep : ascii) (cur s : bytes) : list bytes :=
  match s with
  | [] => [cur]
  | c :: r => if beq c sep then cur :: split_on sep [] r else split_on sep (cur ++ [c]) r
  end.

(** convert_util.go:608-624 [pgParseCommaArray]. *)
Definition pgParseCommaArray (a : bytes) : res (list bytes) :=
  bind (drop_ends a) (fun a =>
    Ok (match a with [] => [] | _ => split_on "," [] a end)).

(** convert_util.go:627-639 [pgParseVector]. *)
Definition pgParseVector (a : bytes) : list bytes :=
  match a with [] => [] | _ => split_on " " [] a end.

(** convert_util.go:654-665: a quoted vector; [cur] = a[k:j].  The elements and,
    if the closing quote was found, the bytes consumed including it. *)
Fixpoint va_quoted (r : bytes) (cur : bytes) (n : nat) : list bytes * option nat :=
  match r with
  | [] => ([], None)
  | c :: r' =>
      if beq c dq then ([cur], Some (S n))
      else if beq c " " then
        let '(es, o) := va_quoted r' [] (S n) in (cur :: es, o)
      else va_quoted r' (cur ++ [c]) (S n)
  end.

(** convert_util.go:643-686 [pgParseVectorArray]; [None] = NULL element. *)
Fixpoint va_loop (s : bytes) (skip : nat) : list (option (list bytes)) :=
  match s with
  | [] => []
  | c :: r =>
      match skip with
      | S n => va_loop r n
      | O =>
          if beq c dq then
            let '(es, o) := va_quoted r [] 0 in
            (* i = j+1; i++: closing quote and the comma after it *)
            Some es :: va_loop r (match o with Some n => S n | None => O end)
          else if beq c "N" then
            if has_prefix (B "NULL") s then None :: va_loop r 3 else va_loop r 0
          else
            let e := upto "," s in
            (* with a comma: i = j; i++.  Without: i is left alone. *)
            Some [e] :: va_loop r (if Nat.ltb (List.length e) (List.length s)
                                   then List.length e else O)
      end
  end.

Definition pgParseVectorArray (a : bytes) : res (list (option (list bytes))) :=
  match a with
  | [] => Ok []
  | _ => bind (drop_ends a) (fun a => Ok (va_loop a 0))
  end.

(** a[lo:hi]; Go also allows hi up to cap(a), the model takes cap = len. *)
Definition subslice (a : bytes) (lo hi : nat) : res bytes :=
  if (Nat.leb lo hi && Nat.leb hi (List.length a))%bool then Ok (firstn (hi - lo) (skipn lo a)) else Panic.

(** hex.Decode into a destination of [n] bytes: a further valid digit pair is a
    write past the destination; missing bytes stay zero. *)
Definition hex_decode_into (n : nat) (s : bytes) : res bytes :=
  if Nat.ltb (List.length s) (2 * n + 2)
  then bind (hex_decode s) (fun b => Ok (b ++ repeat (chr 0) (n - List.length b)))
  else bind (hex_decode (firstn (2 * n + 2) s)) (fun _ => Panic).

(** convert_util.go:689-706 [pgParseUUID]. *)
Definition pgParseUUID (d : bytes) : res bytes :=
  bind (subslice d 0 8) (fun s => bind (hex_decode s) (fun b0 =>
  bind (subslice d 9 13) (fun s => bind (hex_decode s) (fun b1 =>
  bind (subslice d 14 18) (fun s => bind (hex_decode s) (fun b2 =>
  bind (subslice d 19 23) (fun s => bind (hex_decode s) (fun b3 =>
  bind (subslice d 24 (List.length d)) (fun s => bind (hex_decode_into 6 s) (fun b4 =>
    Ok (b0 ++ b1 ++ b2 ++ b3 ++ b4))))))))))).

(** convert_util.go:710-725 [pgFormatUUID] on a 16-byte array. *)
Definition pgFormatUUID (a : bytes) : bytes :=
  let h lo hi := hex_encode (firstn (hi - lo) (skipn lo a)) in
  h 0 4 ++ "-" :: h 4 6 ++ "-" :: h 6 8 ++ "-" :: h 8 10 ++ "-" :: h 10 16.

(** The bytes escaped by [pgAppendQuote1] and [pgAppendQuote2]
    (convert_util.go:731-747, 759-775): quote, backslash, \a \b \f \n \r \t \v. *)
Definition needs_esc (c : ascii) : bool :=
  beq c dq || beq c bs || existsb (N.eqb (code c)) [7; 8; 12; 10; 13; 9; 11]%N.

(** convert_util.go:728-753 [pgAppendQuote1] *)
Definition quote1 (e : bytes) : bytes :=
  dq :: flat_map (fun c => if needs_esc c then [bs; c] else [c]) e ++ [dq].

(** convert_util.go:756-781 [pgAppendQuote2] *)
Definition quote2 (e : bytes) : bytes :=
  [bs; dq] ++ flat_map (fun c => if needs_esc c then [bs; bs; bs; c] else [c]) e ++ [bs; dq].
