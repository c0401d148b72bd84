(** Model of the label class, /repo/opennsa/nsa.py:72-190. *)
From Verif Require Import Base.
Open Scope Z_scope.

(** nsa.py:72-82: a label is a type and a list of value ranges.  Simplification:
    a label built from an int holds lists [[v,v]] instead of tuples (nsa.py:80),
    which only [__eq__] can observe; here both are pairs.  [values=None] cannot
    be constructed, since [type(None)] is not in the tuple of nsa.py:76. *)
Record label := mkLabel { ltype : string; lvalues : list (Z * Z) }.

(** nsa.py:87-99 [createValue] *)
Definition create_value (value : string) : result (Z * Z) :=
  match split1 "-" value with
  | Some (v1, v2) =>
      match py_int v1, py_int v2 with
      | Some i1, Some i2 => if i1 >? i2 then Err EPayload else Ok (i1, i2)
      | _, _ => Err EPayload
      end
  | None =>
      match py_int value with
      | Some i1 => Ok (i1, i1)
      | None => Err EPayload
      end
  end.

(** Python's tuple order, used by [sorted] in nsa.py:104 *)
Definition range_leb (x y : Z * Z) : bool :=
  (fst x <? fst y) || ((fst x =? fst y) && (snd x <=? snd y)).

(** nsa.py:104 [sorted]: the order is total, so every sorting algorithm returns
    the same list; insertion sort stands for Python's *)
Fixpoint insert_range (x : Z * Z) (l : list (Z * Z)) : list (Z * Z) :=
  match l with
  | [] => [x]
  | y :: r => if range_leb x y then x :: l else y :: insert_range x r
  end.
(** nsa.py:104, [sorted(parsed_values)] *)
Fixpoint sort_ranges (l : list (Z * Z)) : list (Z * Z) :=
  match l with [] => [] | x :: r => insert_range x (sort_ranges r) end.

(** nsa.py:108-120, the merge loop; [nv] is kept reversed, its head is [nv[-1]] *)
Fixpoint merge_ranges (nv : list (Z * Z)) (l : list (Z * Z)) : list (Z * Z) :=
  match l with
  | [] => rev nv
  | (v1, v2) :: r =>
      match nv with
      | [] => merge_ranges [(v1, v2)] r
      | (l0, l1) :: nv' =>
          if v1 <=? l1 + 1 then merge_ranges ((l0, Z.max l1 v2) :: nv') r
          else merge_ranges ((v1, v2) :: nv) r
      end
  end.

(** nsa.py:85-120 [_parseLabelValues] on a list of item texts *)
Definition parse_items (values : list string) : result (list (Z * Z)) :=
  do! parsed <- mapM create_value values;
  Ok (merge_ranges [] (sort_ranges parsed)).

(** nsa.py:74-82 [Label(type_, values)] with a list *)
Definition label_of_list (t : string) (values : list string) : result label :=
  do! vs <- parse_items values; Ok (mkLabel t vs).
(** nsa.py:74-82, 101-102 with a str *)
Definition label_of_str (t : string) (s : string) : result label :=
  label_of_list t (split_on "," s).
(** nsa.py:79-80 with an int *)
Definition label_of_int (t : string) (v : Z) : label := mkLabel t [(v, v)].

(** nsa.py:133-149, the inner [while True] for one range [v1,v2] of self:
    produced ranges, then the current range of other and what its iterator has
    left.  The final [else] is unreachable since [v2 <= o2 \/ o2 <= v2]. *)
Fixpoint isect_inner (v1 v2 : Z) (o : Z * Z) (i : list (Z * Z)) {struct i}
  : list (Z * Z) * ((Z * Z) * list (Z * Z)) :=
  let '(o1, o2) := o in
  if v2 <? o1 then ([], (o, i))
  else if o2 <? v1 then
    match i with
    | [] => ([], (o, i))
    | o' :: i' => isect_inner v1 v2 o' i'
    end
  else
    let e := (Z.max v1 o1, Z.min v2 o2) in
    if v2 <=? o2 then ([e], (o, i))
    else if o2 <=? v2 then
      match i with
      | [] => ([e], (o, i))
      | o' :: i' => let '(l, oi) := isect_inner v1 v2 o' i' in (e :: l, oi)
      end
    else ([e], (o, i)).

(** nsa.py:132-149, the outer loop *)
Fixpoint isect_outer (vs : list (Z * Z)) (o : Z * Z) (i : list (Z * Z)) : list (Z * Z) :=
  match vs with
  | [] => []
  | (v1, v2) :: r =>
      let '(l, (o', i')) := isect_inner v1 v2 o i in l ++ isect_outer r o' i'
  end.

(** nsa.py:154, ["%i-%s" % (nv[0], nv[1])] *)
Definition range_text (v : Z * Z) : string := py_str (fst v) +++ "-" +++ py_str (snd v).

(** nsa.py:123-155 [intersect] *)
Definition intersect (self other : label) : result label :=
  if negb (eqb (ltype self) (ltype other)) then Err EAssertion else
  match lvalues other with
  | [] => Err EStopIteration
  | o :: i =>
      let lv := isect_outer (lvalues self) o i in
      match lv with
      | [] => Err EEmptyLabelSet
      | _ :: _ => label_of_str (ltype self) (join "," (map range_text lv))
      end
  end.

(** nsa.py:159, the text of one range *)
Definition value_text (v : Z * Z) : string :=
  if fst v =? snd v then py_str (fst v) else py_str (fst v) +++ "-" +++ py_str (snd v).
(** nsa.py:158-160 [labelValue] *)
Definition label_value (l : label) : string := join "," (map value_text (lvalues l)).

(** nsa.py:162-163 [singleValue] *)
Definition single_value (l : label) : bool :=
  match lvalues l with [(a, b)] => a =? b | _ => false end.

(** Python [range(lo, hi+1)], nsa.py:166 *)
Definition zrange (lo hi : Z) : list Z :=
  map (fun k => lo + Z.of_nat k) (seq 0 (Z.to_nat (hi + 1 - lo))).
(** nsa.py:165-167 [enumerateValues] *)
Definition enumerate_values (l : label) : list Z :=
  flat_map (fun r => zrange (fst r) (snd r)) (lvalues l).

(** nsa.py:169-172 [randomLabel]: [k] is the index drawn by [random.choice] and
    [r] the value drawn by [random.randint(lo, hi+1)], whose bounds are both
    inclusive; draws outside the generator's contract give [None]. *)
Definition random_label (l : label) (k : nat) (r : Z) : option Z :=
  match nth_error (lvalues l) k with
  | Some (lo, hi) => if (lo <=? r) && (r <=? hi + 1) then Some r else None
  | None => None
  end.

(** nsa.py:174-184 [canMatch]; exceptions other than EmptyLabelSet propagate *)
Definition can_match (l1 l2 : option label) : result bool :=
  match l1, l2 with
  | None, None => Ok true
  | Some a, Some b =>
      match intersect a b with
      | Ok _ => Ok true
      | Err EEmptyLabelSet => Ok false
      | Err e => Err e
      end
  | _, _ => Ok false
  end.

(** nsa.py:187-190 [__eq__].  Simplification: a range is a pair here.  In the
    code [Label(type, int)] (nsa.py:79-80) makes a range that is a list, where
    ranges read from text are tuples, and a list is never equal to a tuple; the
    only comparison of labels (genericbackend.py:262) has text-made ones. *)
Definition label_eqb (a b : label) : bool :=
  eqb (ltype a) (ltype b) && eqb (sort_ranges (lvalues a)) (sort_ranges (lvalues b)).
