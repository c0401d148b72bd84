(** Proofs about the options of the command line tool. *)
From Verif Require Import Base BaseProofs ModelLabel ModelSTP SpecSTP ModelHttpClient ModelCli SpecCli.
Open Scope Z_scope.

(** ** The file *)
Lemma fold_last {D A} (step : D -> string -> D) (get : D -> option A) (f : string -> A -> Prop) d0 :
  (forall l a b, f l a -> f l b -> a = b) ->
  (forall d l, (exists a, f l a /\ get (step d l) = Some a) \/ ((forall a, ~ f l a) /\ get (step d l) = get d)) ->
  get d0 = None -> forall lines a, get (fold_left step lines d0) = Some a <-> last_of f lines a.
Proof.
  intros F S H0 lines. induction lines as [|l lines IH] using rev_ind; intros a.
  - cbn [fold_left]. rewrite H0. split; [discriminate|]. intros (b & x & c & E & _). destruct b; discriminate.
  - rewrite fold_left_app. cbn [fold_left]. destruct (S (fold_left step lines d0) l) as [(b & Hb & ->)|[N ->]].
    + split.
      * intros [= <-]. exists lines, l, []. repeat split; [exact Hb|]. intros ? ? [].
      * intros (p & x & c & E & Hx & Hc). f_equal. destruct c as [|y c] using rev_ind.
        -- apply app_inj_tail in E as [_ <-]. exact (F _ _ _ Hb Hx).
        -- change (x :: c ++ [y]) with ((x :: c) ++ [y]) in E. rewrite app_assoc in E. apply app_inj_tail in E as [_ <-].
           exfalso. apply (Hc l b); [apply in_or_app; right; left; reflexivity|exact Hb].
    + rewrite IH. split; intros (p & x & c & E & Hx & Hc).
      * exists p, x, (c ++ [l]). rewrite E, <- app_assoc. repeat split; [exact Hx|]. intros l' b [H|[<-|[]]]%in_app_or; [exact (Hc l' b H)|apply N].
      * destruct c as [|y c] using rev_ind.
        -- apply app_inj_tail in E as [_ <-]. destruct (N _ Hx).
        -- change (x :: c ++ [y]) with ((x :: c) ++ [y]) in E. rewrite app_assoc in E. apply app_inj_tail in E as [-> <-].
           exists p, x, c. repeat split; [exact Hx|]. intros l' b H. apply Hc, in_or_app. left. exact H.
Qed.

Lemma app_char a c b : a +++ String c "" +++ b = a +++ String c b.
Proof. reflexivity. Qed.
Lemma line_inj l o t o' t' : line_of l o t -> line_of l o' t' -> o = o' /\ t = t'.
Proof.
  intros (E & A & B & _) (E' & A' & B' & _). rewrite E in E'.
  assert (X : split1 "=" (o +++ "=" +++ t) = Some (o, t)) by (apply split1_app; exact A).
  rewrite E' in X. rewrite (split1_app "=" o' t' A' : split1 "=" (o' +++ "=" +++ t') = _) in X. injection X as <- <-. auto.
Qed.
Lemma reads_fun st now o t v w : reads st now o t v -> reads st now o t w -> v = w.
Proof.
  intros [n z T E I|z T N E|z T E|T I|T I|T1 T2 T3] [n' z' T' E' I'|z' T' N' E'|z' T' E'|T' I'|T' I'|T1' T2' T3'];
  try (unfold is_time, is_number, is_flag in *; repeat match goal with H : _ \/ _ |- _ => destruct H end; subst; discriminate);
  try (exfalso; tauto); try congruence.
  rewrite E in E'. injection E' as <-. congruence.
Qed.
Lemma sets_fun st now o l v w : sets st now o l v -> sets st now o l w -> v = w.
Proof. intros (t & L & _ & R) (t' & L' & _ & R'). destruct (line_inj _ _ _ _ _ L L') as [_ <-]. exact (reads_fun _ _ _ _ _ _ R R'). Qed.
Lemma names_fun s l a b : names s l a -> names s l b -> a = b.
Proof.
  intros (L & A & B & C) (L' & A' & B' & C'). destruct (line_inj _ _ _ _ _ L L') as [_ E].
  apply (f_equal (split_on ",")) in E.
  rewrite !(fun x y H => split_on_app "," x y H : split_on "," (x +++ "," +++ y) = _) in E by assumption.
  rewrite !split_on_none in E by assumption. destruct a, b. cbn in *. congruence.
Qed.

Lemma option_value_reads st now o t v : option_value st now o t = Ok v <-> reads st now o t v.
Proof.
  unfold option_value. destruct (mem o ["starttime"; "endtime"]) eqn:T.
  { assert (HT : is_time o) by (apply mem_In in T as [<-|[<-|[]]]; [left|right]; reflexivity).
    assert (X : forall z, parse_timestamp st now t = Ok z <-> (exists n y, t = "+" +++ n /\ py_int n = Some y /\ z = now + y) \/ ((forall n, t <> "+" +++ n) /\ st t = Ok z)).
    { intros z. unfold parse_timestamp. destruct t as [|c r].
      - split; [intros E; right; split; [discriminate|exact E]|intros [(n & y & E & _)|[_ E]]; [discriminate|exact E]].
      - destruct (Ascii.eqb c "+") eqn:C.
        + apply Ascii.eqb_eq in C. subst c. unfold cli_int. split.
          * intros E. left. exists r. destruct (py_int r) as [y|]; [|discriminate]. exists y. cbn in E. injection E as <-. auto.
          * intros [(n & y & E & I & ->)|[N _]]; [injection E as <-; rewrite I; reflexivity|exfalso; exact (N r eq_refl)].
        + split; [intros E; right; split; [|exact E]|intros [(n & y & E & _)|[_ E]]; [|exact E]];
            [intros n [= -> _]; discriminate|injection E as -> _; discriminate]. }
    destruct (parse_timestamp st now t) as [z|e] eqn:P; cbn [bind].
    - destruct (proj1 (X z) eq_refl) as [(n & y & E & I & ->)|[N E]]; (split; [intros [= <-]|]).
      + apply (rd_in _ _ _ _ n); assumption.
      + intros R. f_equal. apply (reads_fun st now o t); [|exact R]. apply (rd_in _ _ _ _ n); assumption.
      + apply rd_at; assumption.
      + intros R. f_equal. apply (reads_fun st now o t); [|exact R]. apply rd_at; assumption.
    - split; [discriminate|]. intros [n z T' E I|z T' N E|z T' E|T' I|T' I|T1 T2 T3]; exfalso;
        try (unfold is_time, is_number, is_flag in *; repeat match goal with H : _ \/ _ |- _ => destruct H end; subst; discriminate); try tauto.
      + assert (Err e = Ok (now + z)) by (apply X; left; exists n, z; auto). discriminate.
      + assert (Err e = Ok z) by (apply X; right; auto). discriminate. }
  assert (NT : ~ is_time o) by (intros [->| ->]; discriminate).
  destruct (mem o ["port"; "bandwidth"]) eqn:U.
  { assert (HU : is_number o) by (apply mem_In in U as [<-|[<-|[]]]; [left|right]; reflexivity).
    unfold cli_int. destruct (py_int t) as [z|] eqn:I; cbn [bind].
    - split; [intros [= <-]; apply rd_number; assumption|]. intros R. f_equal. apply (reads_fun st now o t); [|exact R]. apply rd_number; assumption.
    - split; [discriminate|]. intros [n z T' E I'|z T' N E|z T' E|T' I'|T' I'|T1 T2 T3]; exfalso; try tauto; try congruence;
        (unfold is_number, is_flag in *; repeat match goal with H : _ \/ _ |- _ => destruct H end; subst; discriminate). }
  assert (NU : ~ is_number o) by (intros [->| ->]; discriminate).
  destruct (mem o ["tls"; "no-verify"]) eqn:W.
  { assert (HW : is_flag o) by (apply mem_In in W as [<-|[<-|[]]]; [left|right]; reflexivity).
    assert (R : reads st now o t (DFlag (negb (mem (lower t) ["false"; "no"; "0"])))).
    { destruct (mem (lower t) ["false"; "no"; "0"]) eqn:M; cbn [negb].
      - apply rd_no; [exact HW|]. apply mem_In. exact M.
      - apply rd_yes; [exact HW|]. rewrite <- mem_In. congruence. }
    split; [intros [= <-]; exact R|]. intros R'. f_equal. exact (reads_fun _ _ _ _ _ _ R R'). }
  assert (NW : ~ is_flag o) by (intros [->| ->]; discriminate).
  assert (R : reads st now o t (DText t)) by (apply rd_text; assumption).
  split; [intros [= <-]; exact R|]. intros R'. f_equal. exact (reads_fun _ _ _ _ _ _ R R').
Qed.

(** Two pieces. *)
Lemma split_two c s a b : split_on c s = [a; b] -> s = a +++ String c b /\ shas c a = false /\ shas c b = false.
Proof.
  intros E. split; [rewrite <- (join_split_on c s), E; reflexivity|].
  split; apply (split_on_free c s); rewrite E; [left|right; left]; reflexivity.
Qed.
Lemma split_three c s a b d : split_on c s = [a; b; d] -> s = a +++ String c "" +++ b +++ String c d /\ shas c a = false /\ shas c b = false /\ shas c d = false.
Proof.
  intros E. split; [rewrite <- (join_split_on c s), E; reflexivity|].
  split; [|split]; apply (split_on_free c s); rewrite E; [left|right; left|right; right; left]; reflexivity.
Qed.
Lemma starts_hash s : starts_with "#" s = true <-> exists r, s = "#" +++ r.
Proof. split; [apply starts_with_Some|]. intros [r ->]. apply starts_with_app. Qed.

Section File.
  Variable st : string -> result Z.
  Variable now : Z.
  Definition step (d : defaults) (l : string) : defaults := match read_line st now d l with Ok d' => d' | Err _ => d end.

  (** A line of the form [o=t] is read as such, and no other is. *)
  Lemma read_shape l : (exists o t, line_of l o t /\ (eqb (strip l) "" || starts_with "#" (strip l) = false) /\ split_on "=" (strip l) = [o; t]) \/
    ((forall o t, ~ line_of l o t) /\ forall d, step d l = d).
  Proof.
    destruct (eqb (strip l) "" || starts_with "#" (strip l)) eqn:B.
    { right. split.
      - intros o t (E & _ & _ & N). apply Bool.orb_true_iff in B as [B|B].
        + apply (proj1 (eqb_true _ _)) in B. rewrite B in E. destruct o; discriminate.
        + apply starts_hash in B as [r B]. rewrite B in E. destruct o as [|c o]; [discriminate|]. injection E as <- _. exact (N o eq_refl).
      - intros d. unfold step, read_line. cbv zeta. rewrite B. reflexivity. }
    destruct (split_on "=" (strip l)) as [|o [|t [|x r]]] eqn:S.
    - destruct (split_on_nonnil _ _ S).
    - right. split.
      + intros o' t' (E & A & _). rewrite E in S. rewrite (split_on_app "=" o' t' A : split_on "=" (o' +++ "=" +++ t') = _) in S. injection S as _ S. destruct (split_on_nonnil _ _ S).
      + intros d. unfold step, read_line. cbv zeta. rewrite B, S. reflexivity.
    - left. exists o, t. split; [|auto]. apply split_two in S as (E & A & C). repeat split; try assumption.
      intros r ->. apply Bool.orb_false_iff in B as [_ B]. rewrite E in B. change (("#" +++ r) +++ String "=" t) with ("#" +++ (r +++ String "=" t)) in B.
      rewrite starts_with_app in B. discriminate.
    - right. split.
      + intros o' t' (E & A & C & _). rewrite E in S. rewrite (split_on_app "=" o' t' A : split_on "=" (o' +++ "=" +++ t') = _) in S. rewrite split_on_none in S by exact C. discriminate.
      + intros d. unfold step, read_line. cbv zeta. rewrite B, S. reflexivity.
  Qed.

  Lemma step_vals o d l : (exists v, sets st now o l v /\ aget o (df_vals (step d l)) = Some v) \/
    ((forall v, ~ sets st now o l v) /\ aget o (df_vals (step d l)) = aget o (df_vals d)).
  Proof.
    destruct (read_shape l) as [(o' & t & L & B & S)|[N E]]; [|right; split; [intros v (t & L & _); exact (N _ _ L)|rewrite E; reflexivity]].
    unfold step, read_line. cbv zeta. rewrite B, S. destruct (eqb o' "nsa") eqn:EN.
    { right. apply (proj1 (eqb_true _ _)) in EN. split.
      - intros v (t' & L' & NN & _). destruct (line_inj _ _ _ _ _ L L') as [<- _]. exact (NN EN).
      - destruct (split_on "," t) as [|a [|b [|c [|? ?]]]]; reflexivity. }
    assert (NN : o' <> "nsa") by (intros ->; discriminate).
    destruct (option_value st now o' t) as [v|e] eqn:V; cbn [bind df_vals].
    - rewrite aget_aset. destruct (eqb o o') eqn:EO.
      + apply (proj1 (eqb_true _ _)) in EO. subst o'. left. exists v. split; [|reflexivity]. exists t. split; [exact L|]. split; [exact NN|]. apply option_value_reads. exact V.
      + right. split; [|reflexivity]. intros w (t' & L' & _). destruct (line_inj _ _ _ _ _ L L') as [-> _]. rewrite eqb_refl in EO. discriminate.
    - right. split; [|reflexivity]. intros w (t' & L' & _ & R). destruct (line_inj _ _ _ _ _ L L') as [-> ->]. apply option_value_reads in R. congruence.
  Qed.
  Lemma step_nsa s d l : (exists a, names s l a /\ aget s (df_nsa (step d l)) = Some a) \/
    ((forall a, ~ names s l a) /\ aget s (df_nsa (step d l)) = aget s (df_nsa d)).
  Proof.
    destruct (read_shape l) as [(o' & t & L & B & S)|[N E]]; [|right; split; [intros v (L & _); exact (N _ _ L)|rewrite E; reflexivity]].
    unfold step, read_line. cbv zeta. rewrite B, S. destruct (eqb o' "nsa") eqn:EN.
    2:{ right. split; [|destruct (option_value st now o' t); reflexivity]. intros a (L' & _). destruct (line_inj _ _ _ _ _ L L') as [-> _]. discriminate. }
    apply (proj1 (eqb_true _ _)) in EN. subst o'.
    assert (X : forall a, names s l a -> split_on "," t = [s; fst a; snd a]).
    { intros a (L' & H1 & H2 & H3). destruct (line_inj _ _ _ _ _ L L') as [_ ->].
      rewrite !(fun x y H => split_on_app "," x y H : split_on "," (x +++ "," +++ y) = _) by assumption. rewrite split_on_none by assumption. reflexivity. }
    destruct (split_on "," t) as [|x [|y [|z [|w r]]]] eqn:C; try (right; split; [intros a H; apply X in H; discriminate|reflexivity]).
    cbn [df_nsa]. rewrite aget_aset. destruct (eqb s x) eqn:EX.
    - apply (proj1 (eqb_true _ _)) in EX. subst x. left. exists (y, z). split; [|reflexivity].
      apply split_three in C as (E & H1 & H2 & H3). split; [|auto]. subst t. exact L.
    - right. split; [|reflexivity]. intros a H. apply X in H. injection H as -> _ _. rewrite eqb_refl in EX. discriminate.
  Qed.

  Theorem defaults_vals lines o v : aget o (df_vals (read_defaults st now lines)) = Some v <-> last_of (sets st now o) lines v.
  Proof. apply (fold_last step (fun d => aget o (df_vals d))); [intros l a b; apply sets_fun|apply step_vals|reflexivity]. Qed.
  Theorem defaults_nsa lines s a : aget s (df_nsa (read_defaults st now lines)) = Some a <-> last_of (names s) lines a.
  Proof. apply (fold_last step (fun d => aget s (df_nsa d))); [intros l x y; apply names_fun|apply step_nsa|reflexivity]. Qed.
End File.

(** ** Choices *)
Lemma d_true_worth v : d_true v = true <-> worth v.
Proof.
  unfold worth. destruct v as [s|z|b|t]; cbn [d_true].
  - rewrite Bool.negb_true_iff. split; [intros H; repeat split; [|discriminate|discriminate]; intros [= ->]; discriminate|].
    intros (H & _). destruct (eqb s "") eqn:E; [|reflexivity]. apply (proj1 (eqb_true _ _)) in E. subst. destruct (H eq_refl).
  - rewrite Bool.negb_true_iff, Z.eqb_neq. split; [intros H; repeat split; try discriminate; intros [= ->]; exact (H eq_refl)|].
    intros (_ & H & _) ->. exact (H eq_refl).
  - split; [intros ->; repeat split; discriminate|]. intros (_ & _ & H). destruct b; [reflexivity|destruct (H eq_refl)].
  - split; [repeat split; discriminate|reflexivity].
Qed.

Section Choice.
  Variable cl df : list (string * dval).
  Variable file : string -> dval -> Prop.
  Hypothesis Hf : forall o v, aget o df = Some v <-> file o v.
  Notation C := (chosen cl file).
  Definition opt o := d_or (aget o cl) (aget o df).

  Lemma opt_chosen o v : opt o = Some v <-> C o v.
  Proof.
    unfold opt, d_or, chosen, given. destruct (aget o cl) as [w|] eqn:G; cbn [o_true].
    - destruct (d_true w) eqn:T.
      + split; [intros [= ->]; left; split; [reflexivity|apply d_true_worth; exact T]|].
        intros [[E _]|[N _]]; [exact E|]. destruct (N w eq_refl). apply d_true_worth. exact T.
      + rewrite Hf. split.
        * intros H. right. split; [|exact H]. intros x [= <-] W. apply d_true_worth in W. congruence.
        * intros [[[= <-] W]|[_ H]]; [apply d_true_worth in W; congruence|exact H].
    - rewrite Hf. split; [intros H; right; split; [discriminate|exact H]|intros [[E _]|[_ H]]; [discriminate|exact H]].
  Qed.
  Lemma opt_maybe o : maybe C o (opt o).
  Proof. destruct (opt o) as [v|] eqn:E; cbn [maybe]; [apply opt_chosen; exact E|]. intros v H. apply opt_chosen in H. congruence. Qed.
  Lemma opt_worth o : o_true (opt o) = true <-> exists v, C o v /\ worth v.
  Proof.
    split.
    - intros H. destruct (opt o) as [v|] eqn:E; [|discriminate]. exists v. split; [apply opt_chosen; exact E|apply d_true_worth; exact H].
    - intros (v & H & W). apply opt_chosen in H. rewrite H. cbn. apply d_true_worth. exact W.
  Qed.
  Lemma opt_else o (d : dval) : or_else C o (eq d) (match opt o with Some v => if d_true v then v else d | None => d end).
  Proof.
    destruct (opt o) as [v|] eqn:E.
    - apply opt_chosen in E as H. destruct (d_true v) eqn:T.
      + left. split; [exact H|apply d_true_worth; exact T].
      + right. split; [|reflexivity]. intros w K W. apply opt_chosen in K. rewrite E in K. injection K as <-. apply d_true_worth in W. congruence.
    - right. split; [|reflexivity]. intros w K. apply opt_chosen in K. congruence.
  Qed.
End Choice.
