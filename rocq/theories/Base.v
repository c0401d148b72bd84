(** Shared vocabulary of the model: results with Python exceptions as values,
    strings, decimal numbers, association lists (Python dicts). *)
From Coq Require Export String Ascii.
From Coq Require Export List Bool Arith ZArith Lia.
From Coq Require Export ZifyBool ZifyNat ZifyN.
Export ListNotations.
#[global] Open Scope string_scope.
#[global] Open Scope bool_scope.
#[global] Open Scope list_scope.

(** * Exceptions

    Python exceptions that modelled code can raise.  The NSI classes are those
    of /repo/opennsa/error.py:63-205; the others are Python built-ins or the
    module-local exception classes named in the comment. *)
Inductive exn :=
| EAssertion            (* AssertionError *)
| EValue                (* ValueError *)
| EKey                  (* KeyError *)
| EAttribute            (* AttributeError *)
| EType                 (* TypeError *)
| EIndex                (* IndexError *)
| EStopIteration        (* StopIteration, nsa.py:130 next(i) on an empty label *)
| EEmptyLabelSet        (* nsa.EmptyLabelSet, nsa.py:67 *)
| ENRMSpecification     (* nrm.NRMSpecificationError, nrm.py:34 *)
| EConfiguration        (* config.ConfigurationError *)
| ECallbackTimeout      (* error.CallbackTimeoutError, error.py:56-60 *)
| EAlreadyCalled        (* twisted AlreadyCalled / AlreadyCancelled *)
| EPayload | EMissingParameter | EUnsupportedParameter | ENotImplemented
| EConnection | EInvalidTransition | EConnectionExists | EConnectionNonExistent
| EConnectionGone | EConnectionCreate
| ESecurity | EUnauthorized
| ETopology | ESTPResolution | ESTPUnavailable | EVLANInterchange | EDownstream
| EInternalServer | EInternalNRM | EResourceUnavailable
| EService | EUnknownNSI | ENSI
| EOverflow             (* OverflowError *)
| EDatabase             (* an error reported by the database driver *)
| EFuel.                (* not Python: a fuel-bounded loop of the model ran out *)

Inductive result (A : Type) := Ok (a : A) | Err (e : exn).
Arguments Ok {A} a.
Arguments Err {A} e.

(** a statement, and what follows unless it raises; e.g. helper.py:129-161 *)
Definition bind {A B} (r : result A) (f : A -> result B) : result B :=
  match r with Ok a => f a | Err e => Err e end.
Notation "'do!' x <- r ; k" := (bind r (fun x => k))
  (at level 200, x pattern, r at level 100, k at level 200, right associativity).

(** [[f(x) for x in l]], ended by the first exception; e.g. nsiconnection.py:148-158 *)
Fixpoint mapM {A B} (f : A -> result B) (l : list A) : result (list B) :=
  match l with
  | [] => Ok []
  | x :: r => do! y <- f x; do! ys <- mapM f r; Ok (y :: ys)
  end.

(** * Decidable equality *)
Class EqB (K : Type) := { eqb : K -> K -> bool; eqb_ok : forall x y, reflect (x = y) (eqb x y) }.
#[global] Instance EqB_string : EqB string := {| eqb := String.eqb; eqb_ok := String.eqb_spec |}.
#[global] Instance EqB_nat : EqB nat := {| eqb := Nat.eqb; eqb_ok := Nat.eqb_spec |}.
#[global] Instance EqB_Z : EqB Z := {| eqb := Z.eqb; eqb_ok := Z.eqb_spec |}.
#[global] Instance EqB_bool : EqB bool := {| eqb := Bool.eqb; eqb_ok := Bool.eqb_spec |}.

#[global] Arguments eqb {K _} x y : simpl never.

(** Python's [==] of values that may be None; e.g. nsa.py:187-190 *)
Definition opt_eqb {A} `{EqB A} (x y : option A) : bool :=
  match x, y with Some a, Some b => eqb a b | None, None => true | _, _ => false end.
Lemma opt_eqb_ok {A} `{EqB A} (x y : option A) : reflect (x = y) (opt_eqb x y).
Proof.
  destruct x as [a|], y as [b|]; cbn; try (constructor; congruence).
  destruct (eqb_ok a b); constructor; congruence.
Qed.
#[global] Instance EqB_option {A} `{EqB A} : EqB (option A) := {| eqb := opt_eqb; eqb_ok := opt_eqb_ok |}.

(** Python's [==] of tuples; e.g. nsa.py:187-190 *)
Definition pair_eqb {A B} `{EqB A} `{EqB B} (x y : A * B) : bool := eqb (fst x) (fst y) && eqb (snd x) (snd y).
Lemma pair_eqb_ok {A B} `{EqB A} `{EqB B} (x y : A * B) : reflect (x = y) (pair_eqb x y).
Proof.
  destruct x as [a b], y as [c d]; unfold pair_eqb; cbn.
  destruct (eqb_ok a c); destruct (eqb_ok b d); cbn; constructor; congruence.
Qed.
#[global] Instance EqB_pair {A B} `{EqB A} `{EqB B} : EqB (A * B) := {| eqb := pair_eqb; eqb_ok := pair_eqb_ok |}.

(** Python's [==] of lists; e.g. nsa.py:187-190 *)
Fixpoint list_eqb {A} `{EqB A} (x y : list A) : bool :=
  match x, y with
  | [], [] => true
  | a :: x', b :: y' => eqb a b && list_eqb x' y'
  | _, _ => false
  end.
Lemma list_eqb_ok {A} `{EqB A} (x y : list A) : reflect (x = y) (list_eqb x y).
Proof.
  revert y; induction x as [|a x IH]; intros [|b y]; cbn; try (constructor; congruence).
  destruct (eqb_ok a b); cbn; [|constructor; congruence].
  destruct (IH y); constructor; congruence.
Qed.
#[global] Instance EqB_list {A} `{EqB A} : EqB (list A) := {| eqb := list_eqb; eqb_ok := list_eqb_ok |}.

Lemma eqb_refl {K} `{EqB K} (x : K) : eqb x x = true.
Proof. destruct (eqb_ok x x); congruence. Qed.
Lemma eqb_true {K} `{EqB K} (x y : K) : eqb x y = true <-> x = y.
Proof. destruct (eqb_ok x y); split; congruence. Qed.
Lemma eqb_false {K} `{EqB K} (x y : K) : eqb x y = false <-> x <> y.
Proof. destruct (eqb_ok x y); split; congruence. Qed.
Lemma eqb_neq {K} `{EqB K} (x y : K) : x <> y -> eqb x y = false.
Proof. apply eqb_false. Qed.

(** [x in l]; e.g. linkvector.py:67 *)
Definition mem {K} `{EqB K} (x : K) (l : list K) : bool := existsb (eqb x) l.
#[global] Arguments mem {K _} x l : simpl never.
Lemma mem_In {K} `{EqB K} (x : K) l : mem x l = true <-> In x l.
Proof.
  unfold mem; rewrite existsb_exists; split.
  - intros (y & Hy & E). apply (proj1 (eqb_true x y)) in E. subst y. exact Hy.
  - intros Hx. exists x. split; auto. apply eqb_refl.
Qed.

(** * Association lists: Python dicts (insertion ordered) *)
Section Assoc.
  Context {K V : Type} `{EqB K}.
  (** [d.get(k)]; dicts throughout, e.g. linkvector.py:88 *)
  Fixpoint aget (k : K) (d : list (K * V)) : option V :=
    match d with
    | [] => None
    | (k', v) :: r => if eqb k k' then Some v else aget k r
    end.
  (** [d[k] = v]: overwrite in place, or append; dicts throughout, e.g. linkvector.py:88 *)
  Fixpoint aset (k : K) (v : V) (d : list (K * V)) : list (K * V) :=
    match d with
    | [] => [(k, v)]
    | (k', v') :: r => if eqb k k' then (k', v) :: r else (k', v') :: aset k v r
    end.
  (** [d.pop(k)]; e.g. requester.py:57, provider.py:62 *)
  Fixpoint adel (k : K) (d : list (K * V)) : list (K * V) :=
    match d with
    | [] => []
    | (k', v') :: r => if eqb k k' then r else (k', v') :: adel k r
    end.
  (** [k in d]; dicts throughout, e.g. linkvector.py:88 *)
  Definition ahas (k : K) (d : list (K * V)) : bool := match aget k d with Some _ => true | None => false end.
  (** [d.keys()]; dicts throughout, e.g. linkvector.py:88 *)
  Definition akeys (d : list (K * V)) : list K := map fst d.

  Lemma aget_aset k k' v d : aget k (aset k' v d) = if eqb k k' then Some v else aget k d.
  Proof.
    induction d as [|[k1 v1] r IH]; cbn.
    - destruct (eqb k k'); reflexivity.
    - destruct (eqb_ok k' k1) as [->|Hn]; cbn.
      + destruct (eqb k k1); reflexivity.
      + destruct (eqb_ok k k1) as [->|Hn1].
        * rewrite eqb_neq by congruence. reflexivity.
        * apply IH.
  Qed.
  Lemma aget_aset_eq k v d : aget k (aset k v d) = Some v.
  Proof. rewrite aget_aset, eqb_refl. reflexivity. Qed.
  Lemma aget_aset_ne k k' v d : k <> k' -> aget k (aset k' v d) = aget k d.
  Proof. intros Hn. rewrite aget_aset, eqb_neq by auto. reflexivity. Qed.

  Lemma aget_In k v d : aget k d = Some v -> In (k, v) d.
  Proof.
    induction d as [|[k1 v1] r IH]; cbn; [congruence|].
    destruct (eqb_ok k k1) as [->|Hn]; [intros [= ->]; auto | auto].
  Qed.
  Lemma aget_None k d : aget k d = None <-> ~ In k (akeys d).
  Proof.
    induction d as [|[k1 v1] r IH]; cbn; [tauto|].
    destruct (eqb_ok k k1) as [->|Hn]; [split; [congruence | tauto]|].
    rewrite IH. split; intros Hx; [intros [He|He]; [congruence|tauto] | tauto].
  Qed.
  Lemma aget_Some_In_keys k v d : aget k d = Some v -> In k (akeys d).
  Proof. intros Hx. apply aget_In in Hx. apply (in_map fst) in Hx. exact Hx. Qed.
  Lemma In_aget k v d : NoDup (akeys d) -> In (k, v) d -> aget k d = Some v.
  Proof.
    induction d as [|[k1 v1] r IH]; cbn; [tauto|].
    intros Hnd [Heq|Hin].
    - injection Heq as -> ->. rewrite eqb_refl. reflexivity.
    - inversion Hnd as [|? ? Hni Hnd']; subst.
      rewrite eqb_neq; [auto|]. intros ->. apply Hni. apply (in_map fst) in Hin. exact Hin.
  Qed.

  Lemma akeys_aset k v d : akeys (aset k v d) = if ahas k d then akeys d else akeys d ++ [k].
  Proof.
    unfold ahas. induction d as [|[k1 v1] r IH]; cbn; [reflexivity|].
    destruct (eqb_ok k k1) as [->|Hn]; cbn; [reflexivity|].
    fold akeys. unfold akeys in *. rewrite IH. destruct (aget k r); reflexivity.
  Qed.
  Lemma NoDup_snoc {A} (x : A) l : NoDup l -> ~ In x l -> NoDup (l ++ [x]).
  Proof.
    induction l as [|y l IH]; cbn; intros Hnd Hx; [repeat constructor; auto|].
    inversion Hnd; subst. constructor; [|apply IH; tauto].
    rewrite in_app_iff; cbn. intuition congruence.
  Qed.
  Lemma NoDup_akeys_aset k v d : NoDup (akeys d) -> NoDup (akeys (aset k v d)).
  Proof.
    intros Hnd. rewrite akeys_aset. unfold ahas. destruct (aget k d) eqn:E; [exact Hnd|].
    apply NoDup_snoc; [exact Hnd|]. apply aget_None in E. exact E.
  Qed.
  Lemma In_akeys_adel k x d : In x (akeys (adel k d)) -> In x (akeys d).
  Proof.
    induction d as [|[k1 v1] r IH]; cbn; [tauto|].
    destruct (eqb k k1); cbn; tauto.
  Qed.
  Lemma NoDup_akeys_adel k d : NoDup (akeys d) -> NoDup (akeys (adel k d)).
  Proof.
    induction d as [|[k1 v1] r IH]; cbn; [auto|].
    intros Hnd. inversion Hnd as [|? ? Hni Hnd']; subst. destruct (eqb k k1); cbn; [auto|].
    constructor; [|auto]. intros Hx. apply In_akeys_adel in Hx. auto.
  Qed.
  Lemma aget_adel_ne k k' d : k <> k' -> aget k (adel k' d) = aget k d.
  Proof.
    intros Hn. induction d as [|[k1 v1] r IH]; cbn; [reflexivity|].
    destruct (eqb_ok k' k1) as [->|Hn1]; cbn.
    - rewrite eqb_neq by auto. reflexivity.
    - destruct (eqb k k1); auto.
  Qed.
  Lemma aget_adel_eq k d : NoDup (akeys d) -> aget k (adel k d) = None.
  Proof.
    induction d as [|[k1 v1] r IH]; cbn; [reflexivity|].
    intros Hnd. inversion Hnd as [|? ? Hni Hnd']; subst.
    destruct (eqb_ok k k1) as [->|Hn1]; cbn.
    - apply aget_None. exact Hni.
    - rewrite eqb_neq by auto. auto.
  Qed.
End Assoc.

(** * Strings

    Python [str] values are modelled as byte strings (Coq [string]); non-ASCII
    code points, and the non-ASCII digits and white space that Python's [int]
    accepts, are not modelled. *)
Notation "s1 +++ s2" := (String.append s1 s2) (right associativity, at level 60).

(** all characters of a text; for [shas] and the character classes *)
Fixpoint sall (f : ascii -> bool) (s : string) : bool :=
  match s with EmptyString => true | String c r => f c && sall f r end.
(** [c in s]; nsa.py:89, nrm.py:107 *)
Definition shas (c : ascii) (s : string) : bool := negb (sall (fun d => negb (Ascii.eqb c d)) s).

(** [s.split(c)]; nsa.py:102, nrm.py:107, 143 *)
Fixpoint split_on (c : ascii) (s : string) : list string :=
  match s with
  | EmptyString => [EmptyString]
  | String d r =>
      if Ascii.eqb d c then EmptyString :: split_on c r
      else match split_on c r with
           | [] => [String d EmptyString]
           | w :: ws => String d w :: ws
           end
  end.
(** [s.split(c, 1)] when [c in s]; nsa.py:88, helper.py:186, nrm.py:154 *)
Fixpoint split1 (c : ascii) (s : string) : option (string * string) :=
  match s with
  | EmptyString => None
  | String d r =>
      if Ascii.eqb d c then Some (EmptyString, r)
      else match split1 c r with None => None | Some (a, b) => Some (String d a, b) end
  end.
(** [s.rsplit(c, 1)] when [c in s]; helper.py:190, nsa.py:212 *)
Fixpoint rsplit1 (c : ascii) (s : string) : option (string * string) :=
  match s with
  | EmptyString => None
  | String d r =>
      match rsplit1 c r with
      | Some (a, b) => Some (String d a, b)
      | None => if Ascii.eqb d c then Some (EmptyString, r) else None
      end
  end.
(** [sep.join(l)]; nsa.py:159-160, aggregator.py:56 *)
Fixpoint join (sep : string) (l : list string) : string :=
  match l with
  | [] => EmptyString
  | [x] => x
  | x :: r => x +++ sep +++ join sep r
  end.
(** [s.startswith(p)]; nmlxml.py:124, resource.py:198 *)
Fixpoint starts_with (p s : string) : bool :=
  match p, s with
  | EmptyString, _ => true
  | String c p', String d s' => Ascii.eqb c d && starts_with p' s'
  | _, _ => false
  end.
(** [s[n:]], a text without its prefix; nmlxml.py:124-126 *)
Fixpoint sdrop (n : nat) (s : string) : string :=
  match n, s with S m, String _ r => sdrop m r | _, _ => s end.

(** [str.isspace] of ASCII; for [strip] *)
Definition is_space (c : ascii) : bool :=
  let n := nat_of_ascii c in (n =? 32)%nat || ((9 <=? n)%nat && (n <=? 13)%nat) || ((28 <=? n)%nat && (n <=? 31)%nat).
(** [s.lstrip()]; for [strip] *)
Fixpoint lstrip (s : string) : string :=
  match s with String c r => if is_space c then lstrip r else s | EmptyString => s end.
(** [s.rstrip()]; for [strip] *)
Fixpoint rstrip (s : string) : string :=
  match s with
  | EmptyString => EmptyString
  | String c r => match rstrip r with
                  | EmptyString => if is_space c then EmptyString else String c EmptyString
                  | r' => String c r'
                  end
  end.
(** [s.strip()]; used by [int], nsa.py:89-97 *)
Definition strip (s : string) : string := rstrip (lstrip s).

(** the digits [int] accepts; nsa.py:89-97 *)
Definition digit_of (c : ascii) : option Z :=
  let n := nat_of_ascii c in
  if (48 <=? n)%nat && (n <=? 57)%nat then Some (Z.of_nat n - 48)%Z else None.
(** [str.isdigit] of ASCII; for the texts of times, xmlhelper.py *)
Definition is_digit (c : ascii) : bool := match digit_of c with Some _ => true | None => false end.

(** digits with single underscores between them; [prev] tells whether the
    previous character was a digit; nsa.py:89-97 *)
Fixpoint digits (acc : Z) (prev : bool) (s : string) : option Z :=
  match s with
  | EmptyString => if prev then Some acc else None
  | String c r =>
      match digit_of c with
      | Some d => digits (10 * acc + d)%Z true r
      | None => if Ascii.eqb c "_" && prev then digits acc false r else None
      end
  end.
(** Python [int(s)] for base ten text; [None] is [ValueError]; nsa.py:89-97, nrm.py:120 *)
Definition py_int (s : string) : option Z :=
  match strip s with
  | String c r =>
      if Ascii.eqb c "-" then option_map Z.opp (digits 0 false r)
      else if Ascii.eqb c "+" then digits 0 false r
      else digits 0 false (String c r)
  | EmptyString => None
  end.

(** the digit of a number below ten; for [str], nsa.py:160 *)
Definition digit_char (d : Z) : ascii := ascii_of_nat (Z.to_nat d + 48).
(** decimal digits of [n], most significant first; [fuel] bounds their number; nsa.py:160 *)
Fixpoint dec_rev (fuel : nat) (n : Z) : string :=
  match fuel with
  | O => EmptyString
  | S f => if (n <? 10)%Z then String (digit_char n) EmptyString
           else dec_rev f (n / 10) +++ String (digit_char (n mod 10)) EmptyString
  end.
(** Python [str(n)] of an integer; nsa.py:160, nsiframework.py:200 *)
Definition py_str (n : Z) : string :=
  if (n <? 0)%Z then String "-" (dec_rev (S (Z.to_nat (Z.log2 (- n)))) (- n))
  else dec_rev (S (Z.to_nat (Z.log2 n))) n.
