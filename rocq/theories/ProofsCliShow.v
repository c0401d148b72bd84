(** Proofs about what the command line client shows. *)
From Verif Require Import Base BaseProofs ModelXml ModelSTP ModelTime ProofsTimeText ModelQueryHelper ProofsQueryHelper ModelAuthz ModelCliShow SpecCliShow.
Open Scope Z_scope.

Lemma blanks_app a b : blanks (a + b) = blanks a +++ blanks b.
Proof. induction a as [|a IH]; [reflexivity|]. cbn [Nat.add blanks]. rewrite IH. reflexivity. Qed.
Lemma blanks_deeper d : blanks (d + d) +++ "  " = blanks (S d + S d).
Proof. replace (S d + S d)%nat with ((d + d) + 2)%nat by lia. rewrite (blanks_app (d + d) 2). reflexivity. Qed.

Definition kids_of (c : cinfo) : list cinfo := let 'CI _ _ _ _ crits _ _ _ _ _ := c in match crits with [] => [] | QC _ _ _ kids :: _ => kids end.
Lemma kids_made c : made_of c (kids_of c).
Proof. destruct c as [cid gid desc ty crits prov req s nid rid]. destruct crits as [|[rev sc sd kids] r]; constructor. Qed.
Lemma made_kids c k : made_of c k -> k = kids_of c.
Proof. intros H; destruct H; reflexivity. Qed.
(** The lines of a connection itself: those of one that is made of nothing. *)
Definition alone (c : cinfo) : cinfo :=
  let 'CI cid gid desc ty crits prov req s nid rid := c in
  CI cid gid desc ty (match crits with [] => [] | QC rev sc sd _ :: r => QC rev sc sd [] :: r end) prov req s nid rid.
Definition own (i : string) (child : bool) (c : cinfo) : list string := emit i child (alone c).
Lemma emit_own i child c : emit i child c = own i child c ++ flat_map (emit (i +++ "  ") true) (kids_of c).
Proof.
  unfold own. destruct c as [cid gid desc ty crits prov req s nid rid]. destruct crits as [|[rev sc sd kids] r]; cbn [kids_of alone].
  - cbn [flat_map]. rewrite app_nil_r. reflexivity.
  - cbn [emit flat_map]. repeat rewrite <- app_assoc. reflexivity.
Qed.

Lemma perhaps_line d name h o : h = blanks (d + d) +++ name +++ blanks (13 - String.length name) -> perhaps d name o (line_if h o).
Proof.
  intros ->. destruct o as [[|ch s]|]; cbn [line_if]; try constructor.
  replace ((blanks (d + d) +++ name +++ blanks (13 - String.length name)) +++ String ch s) with (row d name (String ch s)) by (unfold row; repeat rewrite append_assoc; reflexivity).
  constructor. discriminate.
Qed.
Lemma word_str b : word_of b (str_bool b).
Proof. destruct b; [left|right]; split; reflexivity. Qed.

Lemma sapp_length a b : String.length (a +++ b) = (String.length a + String.length b)%nat.
Proof. induction a as [|ch a IH]; [reflexivity|]. cbn. f_equal. exact IH. Qed.
Lemma time_str o : time_says o (str_time o).
Proof.
  destruct o as [t|]; [right|left; split; reflexivity].
  exists t, (pad 4 (dy t) +++ "-" +++ pad 2 (dmo t) +++ "-" +++ pad 2 (dd t)),
    (pad 2 (dh t) +++ ":" +++ pad 2 (dmi t) +++ ":" +++ pad 2 (ds t) +++ (if dus t =? 0 then "" else "." +++ pad 6 (dus t))).
  split; [reflexivity|split; [|split]].
  - unfold createXMLTime, isoformat. repeat rewrite append_assoc. reflexivity.
  - repeat rewrite sapp_length. repeat rewrite pad_length. reflexivity.
  - unfold str_time. repeat rewrite append_assoc. reflexivity.
Qed.
Definition inner (d : nat) : bool := match d with O => false | _ => true end.
Lemma service_own d sd : service_shown d sd (service_lines (blanks (d + d)) (inner d) sd).
Proof.
  destruct sd as [[src dst cap dir sym]|]; [|apply shown_other].
  destruct d as [|d]; cbn [inner service_lines p_src p_dst p_cap p_dir p_sym].
  - apply (shown_top src dst cap dir sym). destruct sym as [[|]|]; [left|right|right]; split; try reflexivity; discriminate.
  - apply (shown_below d).
Qed.
Lemma first_own d rev sc sd kids others :
  first_shown d (QC rev sc sd kids :: others)
    ((if inner d then [] else [blanks (d + d) +++ "Start-End    " +++ str_time (sc_start sc) +++ " - " +++ str_time (sc_end sc)]) ++ service_lines (blanks (d + d)) (inner d) sd).
Proof.
  pose proof (service_own d sd) as S. destruct d as [|d]; cbn [inner app] in *.
  - apply (shown_first rev sc sd kids others); [apply time_str..|exact S].
  - apply shown_inner. exact S.
Qed.
Lemma block_own d c : block d c (own (blanks (d + d)) (inner d) c).
Proof.
  destruct c as [cid gid desc ty crits prov req s nid rid]. unfold own. cbn [alone emit]. apply a_block; try apply word_str; try (apply perhaps_line; reflexivity).
  destruct crits as [|[rev sc sd kids] r]; [constructor|]. cbn [flat_map]. rewrite app_nil_r. apply first_own.
Qed.

Definition laid (d : nat) (l : list cinfo) : Prop :=
  exists ws bs, walk d l ws /\ Forall2 (fun w b => block (fst w) (snd w) b) ws bs /\ flat_map (emit (blanks (d + d)) (inner d)) l = concat bs.
Lemma laid_list l : Forall (fun c => forall d, laid (S d) (kids_of c)) l -> forall d, laid d l.
Proof.
  intros F d. induction F as [|c l Hc F IH].
  - exists [], []. split; [constructor|split; [constructor|reflexivity]].
  - destruct IH as (w2 & b2 & W2 & F2 & E2). destruct (Hc d) as (w1 & b1 & W1 & F1 & E1).
    exists ((d, c) :: w1 ++ w2), (own (blanks (d + d)) (inner d) c :: b1 ++ b2). split; [|split].
    + apply (walk_cons d c (kids_of c)); [apply kids_made|exact W1|exact W2].
    + constructor; [apply block_own|apply Forall2_app; assumption].
    + cbn [flat_map concat]. rewrite emit_own, E2, concat_app. rewrite <- app_assoc. f_equal.
      rewrite blanks_deeper. cbn [inner] in E1. rewrite E1. reflexivity.
Qed.
Lemma laid_kids c : forall d, laid (S d) (kids_of c).
Proof.
  apply cinfo_ind' with (P := fun c => forall d, laid (S d) (kids_of c)) (Q := fun q => let 'QC _ _ _ kids := q in forall d, laid (S d) kids).
  - intros cid gid desc ty crits prov req s nid rid F d. destruct F as [|[rev sc sd kids] r Hq F]; cbn [kids_of]; [|apply Hq].
    apply laid_list. constructor.
  - intros rev sc sd kids F d. apply laid_list. exact F.
Qed.
Lemma laid_all l : laid 0 l.
Proof. apply laid_list. apply Forall_forall. intros c _ d. apply laid_kids. Qed.

Lemma walk_has d l ws : walk d l ws -> forall n c x, In c l -> below n c x -> In ((d + n)%nat, x) ws.
Proof.
  intros W. induction W as [d|d c kids r a b M Wa IHa Wb IHb]; intros n c' x Hin B; [destruct Hin|].
  destruct Hin as [<-|Hin].
  - destruct B as [c|n c kids' k x M' Hk B]; [left; f_equal; lia|].
    right. apply in_or_app. left. rewrite (made_kids _ _ M) in IHa. rewrite (made_kids _ _ M') in Hk.
    replace (d + S n)%nat with (S d + n)%nat by lia. apply (IHa n k); assumption.
  - right. apply in_or_app. right. apply (IHb n c'); assumption.
Qed.
Lemma walk_only d l ws : walk d l ws -> forall m x, In (m, x) ws -> exists n c, m = (d + n)%nat /\ In c l /\ below n c x.
Proof.
  intros W. induction W as [d|d c kids r a b M Wa IHa Wb IHb]; intros m x Hin; [destruct Hin|].
  destruct Hin as [E|Hin]; [|apply in_app_or in Hin; destruct Hin as [Hin|Hin]].
  - injection E as <- <-. exists 0%nat, c. split; [lia|split; [left; reflexivity|constructor]].
  - destruct (IHa m x Hin) as (n & k & -> & Hk & B). exists (S n), c. split; [lia|split; [left; reflexivity|]].
    apply (below_kid n c kids k x); assumption.
  - destruct (IHb m x Hin) as (n & k & -> & Hk & B). exists n, k. split; [reflexivity|split; [right; exact Hk|exact B]].
Qed.
Lemma forall2_in {A B} (R : A -> B -> Prop) l l' : Forall2 R l l' -> forall x, In x l -> exists y, In y l' /\ R x y.
Proof.
  intros F. induction F as [|a b l l' Hr F IH]; intros x Hin; [destruct Hin|].
  destruct Hin as [<-|Hin]; [exists b; split; [left; reflexivity|exact Hr]|].
  destruct (IH x Hin) as (y & Hy & Ry). exists y. split; [right; exact Hy|exact Ry].
Qed.
Lemma concat_in {A} (l : list (list A)) b : In b l -> exists pre post, concat l = pre ++ b ++ post.
Proof.
  intros Hin. destruct (in_split b l Hin) as (l1 & l2 & ->). exists (concat l1), (concat l2). rewrite concat_app. reflexivity.
Qed.

(** * Nothing is hidden *)
Lemma row_open d name v : In name ["Connection"; "Global ID"; "Description"; "States"; "Dataplane"; "Start-End"; "Path"; "Bandwidth"; "Direction"; "Symmetric"] ->
  hidden (row d name v) = false /\ row d name v <> "".
Proof.
  intros Hin. destruct d as [|d].
  - cbn in Hin. repeat (destruct Hin as [<-|Hin]; [split; [reflexivity|discriminate]|]). destruct Hin.
  - unfold row. cbn [Nat.add blanks]. split; [reflexivity|discriminate].
Qed.
Definition open_line (s : string) : Prop := hidden s = false /\ s <> "".
Lemma perhaps_open d name o ls : In name ["Global ID"; "Description"] -> perhaps d name o ls -> Forall open_line ls.
Proof. intros Hin P. destruct P; constructor; [|constructor]. apply row_open. cbn in *. tauto. Qed.
Lemma service_open d sd ls : service_shown d sd ls -> Forall open_line ls.
Proof.
  intros S. destruct S as [src dst cap dir sym more C|d src dst cap dir sym|d].
  - apply Forall_app. split; [repeat (constructor; [apply row_open; cbn; tauto|]); constructor|].
    destruct C as [[_ ->]|[_ ->]]; [|constructor]. constructor; [apply row_open; cbn; tauto|constructor].
  - constructor; [apply row_open; cbn; tauto|constructor].
  - constructor; [|constructor]. destruct d as [|d]; split; try reflexivity; discriminate.
Qed.
Lemma first_open d crits ls : first_shown d crits ls -> Forall open_line ls.
Proof.
  intros F. destruct F as [d|rev sc sd kids others a b ls A B S|d rev sc sd kids others ls S]; [constructor|constructor|];
    try (apply row_open; cbn; tauto); apply (service_open _ _ _ S).
Qed.
Lemma block_open d c b : block d c b -> exists ls, b = "" :: ls /\ ls <> [] /\ Forall open_line ls.
Proof.
  intros B. destruct B as [d cid gid desc ty crits prov req s nid rid g t ls act cons G T F A C].
  eexists. split; [reflexivity|split; [discriminate|]].
  constructor; [apply row_open; cbn; tauto|]. apply Forall_app. split; [apply (perhaps_open _ _ _ _ (or_introl eq_refl) G)|].
  apply Forall_app. split; [apply (perhaps_open d "Description" desc); [right; left; reflexivity|exact T]|].
  do 2 (constructor; [apply row_open; cbn; tauto|]). apply (first_open _ _ _ F).
Qed.
Lemma terminal_all l : Forall (fun s => hidden s = false) l -> terminal l = fold_right (fun t r => t +++ String "010" r) "" l.
Proof. intros F. induction F as [|s l Hs F IH]; [reflexivity|]. cbn [terminal fold_right]. rewrite Hs. f_equal. f_equal. exact IH. Qed.
Lemma blocks_open ws bs : Forall2 (fun w b => block (fst w) (snd w) b) ws bs -> Forall (fun s => hidden s = false) (concat bs).
Proof.
  intros F. induction F as [|w b ws bs Hb F IH]; [constructor|]. cbn [concat]. apply Forall_app. split; [|exact IH].
  destruct (block_open _ _ _ Hb) as (ls & -> & _ & O). constructor; [reflexivity|]. eapply Forall_impl; [|exact O]. intros s [Hs _]. exact Hs.
Qed.
Lemma lines_open l : Forall (fun s => hidden s = false) (query_lines l).
Proof.
  destruct l as [|c l]; [constructor; [reflexivity|constructor]|]. cbn [query_lines].
  constructor; [reflexivity|]. destruct (laid_all (c :: l)) as (ws & bs & W & F & E). cbn [inner] in E. change (blanks (0 + 0)) with "" in E.
  cbn [app]. rewrite E. apply Forall_app. split; [apply (blocks_open _ _ F)|constructor; [reflexivity|constructor]].
Qed.

(** * What is shown tells connections apart *)
Lemma open_split ls : forall ls' x x', Forall open_line ls -> Forall open_line ls' -> (x = [] \/ exists r, x = "" :: r) -> (x' = [] \/ exists r, x' = "" :: r) ->
  ls ++ x = ls' ++ x' -> ls = ls' /\ x = x'.
Proof.
  induction ls as [|s ls IH]; intros ls' x x' O O' X X' E.
  - destruct ls' as [|s' ls']; [split; [reflexivity|exact E]|]. cbn [app] in E. inversion O' as [|? ? [_ N] _]; subst.
    destruct X as [?|[r ?]]; [discriminate|]. exfalso. apply N. congruence.
  - inversion O as [|? ? [_ N] Or]; subst. destruct ls' as [|s' ls'].
    + cbn [app] in E. destruct X' as [->|[r ->]]; [discriminate|]. exfalso. apply N. congruence.
    + cbn [app] in E. injection E as <- E. inversion O' as [|? ? _ Or']; subst. destruct (IH ls' x x' Or Or' X X' E) as [<- <-]. split; reflexivity.
Qed.
Definition is_block (b : list string) : Prop := exists ls, b = "" :: ls /\ ls <> [] /\ Forall open_line ls.
Lemma concat_start bs : Forall is_block bs -> concat bs = [] \/ exists r, concat bs = "" :: r.
Proof. intros F. destruct F as [|b bs (ls & -> & _) F]; [left; reflexivity|right]. eexists. reflexivity. Qed.
Lemma concat_blocks bs : forall bs', Forall is_block bs -> Forall is_block bs' -> concat bs = concat bs' -> bs = bs'.
Proof.
  induction bs as [|b bs IH]; intros bs' F F' E.
  - destruct F' as [|b' bs' (ls & -> & _) F']; [reflexivity|discriminate].
  - destruct F' as [|b' bs' Hb' F']; [inversion F as [|? ? (ls & -> & _) _]; discriminate|].
    inversion F as [|? ? Hb Fr]; subst. destruct Hb as (ls & -> & _ & O). destruct Hb' as (ls' & -> & _ & O').
    cbn [concat app] in E. injection E as E. destruct (open_split ls ls' _ _ O O' (concat_start _ Fr) (concat_start _ F') E) as [<- Er].
    f_equal. apply IH; assumption.
Qed.
Lemma forall2_blocks ws bs : Forall2 (fun w b => block (fst w) (snd w) b) ws bs -> Forall is_block bs.
Proof. intros F. induction F as [|w b ws bs Hb F IH]; constructor; [apply (block_open _ _ _ Hb)|exact IH]. Qed.

Lemma blanks_same n : forall m c c' x y, c <> " "%char -> c' <> " "%char -> blanks n +++ String c x = blanks m +++ String c' y -> n = m /\ String c x = String c' y.
Proof.
  induction n as [|n IH]; intros m c c' x y N N' E; destruct m as [|m]; cbn in E.
  - split; [reflexivity|exact E].
  - injection E as E _. contradiction.
  - injection E as E _. symmetry in E. contradiction.
  - injection E as E. destruct (IH m c c' x y N N' E) as [-> Ex]. split; [reflexivity|exact Ex].
Qed.
Lemma lacks_split ch a : forall b x y, lacks ch a -> lacks ch b -> a +++ String ch x = b +++ String ch y -> a = b /\ x = y.
Proof.
  unfold lacks. induction a as [|c a IH]; intros b x y La Lb E; destruct b as [|c' b]; cbn in *.
  - injection E as <-. split; reflexivity.
  - injection E as <- _. rewrite Ascii.eqb_refl in Lb. discriminate.
  - injection E as -> _. rewrite Ascii.eqb_refl in La. discriminate.
  - injection E as <- E. apply andb_true_iff in La. apply andb_true_iff in Lb. destruct La as [_ La]. destruct Lb as [_ Lb].
    destruct (IH b x y La Lb E) as [<- <-]. split; reflexivity.
Qed.
Lemma last_same a : forall b ch, a +++ String ch "" = b +++ String ch "" -> a = b.
Proof.
  induction a as [|c a IH]; intros b ch E; destruct b as [|c' b]; cbn in E.
  - reflexivity.
  - injection E as _ E. destruct b; discriminate.
  - injection E as _ E. destruct a; discriminate.
  - injection E as <- E. f_equal. apply (IH b ch E).
Qed.
Lemma number_lacks n : lacks "," (py_str n).
Proof.
  pose proof (py_str_chars n) as P. unfold lacks. revert P. generalize (py_str n). intros s. induction s as [|c s IH]; [reflexivity|].
  cbn. intros P. apply andb_true_iff in P. destruct P as [P1 P2]. rewrite (IH P2), andb_true_r.
  destruct (Ascii.eqb_spec c ","); [subst; discriminate|reflexivity].
Qed.
Lemma row_value d name v w : row d name v = row d name w -> v = w.
Proof. unfold row. intros E. apply append_inj_r in E. apply append_inj_r in E. apply append_inj_r in E. exact E. Qed.
Lemma row_depth d d' v w : row d "Connection" v = row d' "Connection" w -> d = d'.
Proof.
  unfold row. intros E. cbn in E. apply blanks_same in E; [|discriminate..]. destruct E as [E _]. lia.
Qed.
(** Lines of different names differ. *)
Definition letter (name : string) : option ascii := match name with String c _ => Some c | "" => None end.
Lemma row_other d n m v w : letter n <> letter m -> n <> "" -> m <> "" -> row d n v <> row d m w.
Proof.
  intros L N M E. unfold row in E. apply append_inj_r in E. destruct n as [|c n]; [contradiction|]. destruct m as [|c' m]; [contradiction|].
  cbn in E. injection E as E _. apply L. cbn. congruence.
Qed.
Lemma word_same b b' s : word_of b s -> word_of b' s -> b = b'.
Proof. intros [[-> ->]|[-> ->]] [[-> E]|[-> E]]; congruence. Qed.
Lemma word_lacks b s : word_of b s -> lacks "," s.
Proof. intros [[_ ->]|[_ ->]]; reflexivity. Qed.
Lemma perhaps_cases d name o ls : perhaps d name o ls -> ls = [] \/ exists v, ls = [row d name v].
Proof. intros P. destruct P as [s N| |]; [right; exists s|left|left]; reflexivity. Qed.
Lemma rows_same d g g' t t' gid gid' desc desc' v v' w w' r r' :
  perhaps d "Global ID" gid g -> perhaps d "Global ID" gid' g' -> perhaps d "Description" desc t -> perhaps d "Description" desc' t' ->
  g ++ t ++ row d "States" v :: row d "Dataplane" w :: r = g' ++ t' ++ row d "States" v' :: row d "Dataplane" w' :: r' ->
  v = v' /\ w = w'.
Proof.
  intros G G' T T' E.
  assert (forall n m a b, In (n, m) [("Global ID", "Description"); ("Global ID", "States"); ("Description", "States"); ("Description", "Global ID"); ("States", "Global ID"); ("States", "Description")] ->
            row d n a = row d m b -> False) as D.
  { intros n m a b Hin Er. revert Er. cbn in Hin. repeat (destruct Hin as [X|Hin]; [injection X as <- <-; apply row_other; discriminate|]). destruct Hin. }
  apply perhaps_cases in G, G', T, T'.
  destruct G as [->|[? ->]], G' as [->|[? ->]], T as [->|[? ->]], T' as [->|[? ->]]; cbn [app] in E;
    repeat match type of E with ?a :: ?l = ?b :: ?m => assert (a = b) by congruence; assert (l = m) as E' by congruence; clear E; rename E' into E end;
    try (exfalso; match goal with X : row d _ _ = row d _ _ |- _ => apply D in X; [exact X|cbn; tauto] end);
    try (split; eapply row_value; eassumption).
Qed.
Lemma block_same d c d' c' b b' : plain c -> plain c' -> block d c b -> block d' c' b' -> b' = b -> d = d' /\ agree c c'.
Proof.
  intros P P' B B' Eb. destruct B as [d cid gid desc ty crits prov req s nid rid g t ls act cons G T F A C].
  destruct B' as [d' cid2 gid2 desc2 ty2 crits2 prov2 req2 s2 nid2 rid2 g2 t2 ls2 act2 cons2 G2 T2 F2 A2 C2].
  cbn [app] in Eb. injection Eb as Eh El.
  pose proof (row_depth _ _ _ _ Eh) as Ed. subst d'. split; [reflexivity|].
  destruct (rows_same _ _ _ _ _ _ _ _ _ _ _ _ _ _ _ G2 G T2 T El) as [Es Ep]. clear El.
  apply row_value in Eh. cbn [plain] in P, P'. destruct P as (Pc & Pr & Pp), P' as (Pc2 & Pr2 & Pp2). cbn [agree].
  destruct (lacks_split " " cid2 cid _ _ Pc2 Pc Eh) as [-> Eh2]. cbn in Eh2. injection Eh2 as Eh2. apply last_same in Eh2. subst prov2.
  destruct (lacks_split "," _ _ _ _ Pr2 Pr Es) as [Er Es2]. cbn in Es2. injection Es2 as Es2.
  destruct (lacks_split "," _ _ _ _ Pp2 Pp Es2) as [Epp Es3]. cbn in Es3. injection Es3 as Es3.
  cbn in Ep. injection Ep as Ep.
  destruct (lacks_split "," _ _ _ _ (word_lacks _ _ A2) (word_lacks _ _ A) Ep) as [-> Ep2]. cbn in Ep2. injection Ep2 as Ep2.
  destruct (lacks_split "," _ _ _ _ (number_lacks _) (number_lacks _) Ep2) as [Ev Ep3]. apply py_str_inj in Ev. cbn in Ep3. injection Ep3 as ->.
  pose proof (word_same _ _ _ A2 A) as Ea. pose proof (word_same _ _ _ C2 C) as Eo.
  split; [reflexivity|split; [reflexivity|]]. destruct s as [r1 p1 l1 a1 v1 o1], s2 as [r2 p2 l2 a2 v2 o2]. cbn in *. congruence.
Qed.
Lemma shown_same l l' ws ws' bs bs' : walk 0 l ws -> walk 0 l' ws' -> Forall2 (fun w b => block (fst w) (snd w) b) ws bs -> Forall2 (fun w b => block (fst w) (snd w) b) ws' bs' ->
  Forall (fun w => plain (snd w)) ws -> Forall (fun w => plain (snd w)) ws' -> bs = bs' ->
  Forall2 (fun a b => fst a = fst b /\ agree (snd a) (snd b)) ws ws'.
Proof.
  intros _ _ F F' P P' <-. revert ws' F' P'. induction F as [|w b ws bs Hb F IH]; intros ws' F' P'; inversion F'; subst; constructor.
  - inversion P; inversion P'; subst. eapply block_same; try eassumption; reflexivity.
  - inversion P; inversion P'; subst. apply IH; assumption.
Qed.
Lemma row_not_none d name v : In name ["Connection"; "Global ID"; "Description"; "States"; "Dataplane"; "Start-End"; "Path"; "Bandwidth"; "Direction"; "Symmetric"] ->
  row d name v <> "No results from query".
Proof.
  intros Hin. destruct d as [|d].
  - cbn in Hin. repeat (destruct Hin as [<-|Hin]; [discriminate|]). destruct Hin.
  - unfold row. cbn [Nat.add blanks]. discriminate.
Qed.
Lemma perhaps_in d name o ls s : perhaps d name o ls -> In s ls -> exists v, row d name v = s.
Proof. intros P Hin. apply perhaps_cases in P. destruct P as [->|[v ->]]; [destruct Hin|]. exists v. destruct Hin as [X|Hin]; [exact X|destruct Hin]. Qed.
Lemma block_names d c b : block d c b -> ~ In "No results from query" b.
Proof.
  intros B. destruct B as [d cid gid desc ty crits prov req s nid rid g t ls act cons G T F A C]. intros Hin. cbn [app] in Hin.
  assert (forall name v, In name ["Connection"; "Global ID"; "Description"; "States"; "Dataplane"; "Start-End"; "Path"; "Bandwidth"; "Direction"; "Symmetric"] ->
            row d name v = "No results from query" -> False) as N by (intros name v Hn Er; exact (row_not_none d name v Hn Er)).
  destruct Hin as [X|[X|Hin]]; [discriminate|eapply N; [|exact X]; cbn; tauto|].
  apply in_app_or in Hin. destruct Hin as [Hin|Hin].
  { destruct (perhaps_in _ _ _ _ _ G Hin) as [v X]. eapply N; [|exact X]; cbn; tauto. }
  apply in_app_or in Hin. destruct Hin as [Hin|Hin].
  { destruct (perhaps_in _ _ _ _ _ T Hin) as [v X]. eapply N; [|exact X]; cbn; tauto. }
  destruct Hin as [X|[X|Hin]]; [eapply N; [|exact X]; cbn; tauto|eapply N; [|exact X]; cbn; tauto|].
  assert (forall e sd ks, service_shown e sd ks -> ~ In "No results from query" ks) as S.
  { intros e sd ks K. destruct K as [src dst cap dir sym more O|e src dst cap dir sym|e]; intros Hk.
    - repeat (destruct Hk as [X|Hk]; [discriminate|]). destruct O as [[_ ->]|[_ ->]]; [destruct Hk as [X|[]]; discriminate|destruct Hk].
    - destruct Hk as [X|[]]. revert X. apply row_not_none. cbn; tauto.
    - destruct Hk as [X|[]]. destruct e; discriminate. }
  destruct F as [d|rev sc sd kids others a b2 ls A1 B1 K|d rev sc sd kids others ls K]; [destruct Hin| |exact (S _ _ _ K Hin)].
  destruct Hin as [X|Hin]; [discriminate|exact (S _ _ _ K Hin)].
Qed.
