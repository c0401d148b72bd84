(** Proofs for C102. *)
From Verif Require Import Base BaseProofs ModelXml ModelHeader ModelAuthz ModelErrors ModelLabel ModelSTP SpecSTP ProofsSTP ModelTime SpecTime ModelQueryHelper SpecQueryHelper ProofsQueryHelper
  ModelMessages SpecHeader ProofsHeaderDoc SpecDocument ProofsDocument SpecResults.
Require Import Coq.Sorting.Permutation Coq.Sorting.Sorted.
Open Scope Z_scope.

Section ElemInd.
  Variable P : element -> Prop.
  Hypothesis H : forall t a x ks, Forall P ks -> P (Elem t a x ks).
  Fixpoint elem_ind' (e : element) : P e :=
    let 'Elem t a x ks := e in
    H t a x ks ((fix go (l : list element) : Forall P l := match l with [] => Forall_nil P | k :: r => Forall_cons k (elem_ind' k) (go r) end) ks).
End ElemInd.

(** Sorting. *)
Fixpoint ins (x : Z * cinfo) (l : list (Z * cinfo)) : list (Z * cinfo) :=
  match l with [] => [x] | y :: r => if fst y <=? fst x then y :: ins x r else x :: l end.
Definition digits (ps : list (Z * cinfo)) : Prop := forall x, In x ps -> 0 <= fst x <= 9.
Definition keyed (x : Z * cinfo) : string * cinfo := (py_str (fst x), snd x).
Lemma digit_leb a b : 0 <= a <= 9 -> 0 <= b <= 9 -> String.ltb (py_str a) (py_str b) || String.eqb (py_str a) (py_str b) = (a <=? b).
Proof.
  intros A B. destruct (Z.leb_spec a b) as [L|L].
  - destruct (Z.eq_dec a b) as [->|N]; [rewrite String.eqb_refl; apply Bool.orb_true_r|]. rewrite digit_order by lia. reflexivity.
  - assert (a = 1 \/ a = 2 \/ a = 3 \/ a = 4 \/ a = 5 \/ a = 6 \/ a = 7 \/ a = 8 \/ a = 9) as Ca by lia.
    assert (b = 0 \/ b = 1 \/ b = 2 \/ b = 3 \/ b = 4 \/ b = 5 \/ b = 6 \/ b = 7 \/ b = 8) as Cb by lia.
    repeat (destruct Ca as [->|Ca]); try subst a; repeat (destruct Cb as [->|Cb]); try subst b; try lia; vm_compute; reflexivity.
Qed.
Lemma ins_keyed x l : 0 <= fst x <= 9 -> digits l -> insert_sorted (keyed x) (map keyed l) = map keyed (ins x l).
Proof.
  intros X. induction l as [|y l IH]; intros D; [reflexivity|]. cbn [map insert_sorted ins]. change (fst (keyed y)) with (py_str (fst y)). change (fst (keyed x)) with (py_str (fst x)).
  rewrite digit_leb by (try exact X; apply D; left; reflexivity). destruct (fst y <=? fst x); [|reflexivity]. cbn [map]. f_equal. apply IH. intros z Hz. apply D. right. exact Hz.
Qed.
Lemma ins_perm x l : Permutation (x :: l) (ins x l).
Proof. induction l as [|y l IH]; [reflexivity|]. cbn [ins]. destruct (fst y <=? fst x); [|reflexivity]. rewrite perm_swap. constructor. exact IH. Qed.
Lemma ins_sorted x l : StronglySorted (fun a b => fst a <= fst b) l -> StronglySorted (fun a b => fst a <= fst b) (ins x l).
Proof.
  induction l as [|y l IH]; intros S; [constructor; constructor|]. cbn [ins]. apply StronglySorted_inv in S as [S F]. destruct (Z.leb_spec (fst y) (fst x)) as [L|L].
  - constructor; [exact (IH S)|]. apply Forall_forall. intros z Z1. apply (Permutation_in _ (Permutation_sym (ins_perm x l))) in Z1 as [<-|Z1]; [exact L|]. rewrite Forall_forall in F. exact (F _ Z1).
  - constructor; [constructor; [exact S|exact F]|]. constructor; [lia|]. eapply Forall_impl; [|exact F]. cbn. intros z. lia.
Qed.
Definition isort (ps : list (Z * cinfo)) : list (Z * cinfo) := fold_left (fun acc x => ins x acc) ps [].
Lemma sort_keyed ps : digits ps -> sorted_by_text (map keyed ps) = map keyed (isort ps).
Proof.
  intros D. unfold sorted_by_text, isort. change (@nil (string * cinfo)) with (map keyed []).
  assert (G : forall acc, digits acc -> fold_left (fun acc x => insert_sorted x acc) (map keyed ps) (map keyed acc) = map keyed (fold_left (fun acc x => ins x acc) ps acc)).
  { induction ps as [|x ps IH]; intros acc Da; [reflexivity|]. cbn [map fold_left]. rewrite ins_keyed; [|apply D; left; reflexivity|exact Da]. apply IH; [intros z Hz; apply D; right; exact Hz|].
    intros z Hz. apply (Permutation_in _ (Permutation_sym (ins_perm x acc))) in Hz as [<-|Hz]; [apply D; left; reflexivity|exact (Da z Hz)]. }
  apply G. intros z [].
Qed.
Lemma isort_perm ps : Permutation ps (isort ps) /\ StronglySorted (fun a b => fst a <= fst b) (isort ps).
Proof.
  unfold isort. assert (G : forall acc, StronglySorted (fun a b => fst a <= fst b) acc ->
    Permutation (ps ++ acc) (fold_left (fun acc x => ins x acc) ps acc) /\ StronglySorted (fun a b => fst a <= fst b) (fold_left (fun acc x => ins x acc) ps acc)).
  { induction ps as [|x ps IH]; intros acc S; [split; [reflexivity|exact S]|]. cbn [fold_left app]. destruct (IH (ins x acc) (ins_sorted x acc S)) as [P Q]. split; [|exact Q].
    rewrite <- P. rewrite <- ins_perm. apply Permutation_middle. }
  destruct (G [] (SSorted_nil _)) as [P Q]. rewrite app_nil_r in P. split; assumption.
Qed.
Lemma sorted_unique (a b : list (Z * cinfo)) : Permutation a b -> StronglySorted (fun x y => fst x < fst y) a -> StronglySorted (fun x y => fst x <= fst y) b -> a = b.
Proof.
  revert b. induction a as [|x a IH]; intros b P Sa Sb; [apply Permutation_nil in P; congruence|].
  apply StronglySorted_inv in Sa as [Sa Fa]. rewrite Forall_forall in Fa.
  destruct b as [|y b]; [apply Permutation_sym, Permutation_nil in P; discriminate|]. apply StronglySorted_inv in Sb as [Sb Fb]. rewrite Forall_forall in Fb.
  assert (E : x = y).
  { assert (Iy : In y (x :: a)) by (apply (Permutation_in _ (Permutation_sym P)); left; reflexivity). destruct Iy as [->|Iy]; [reflexivity|].
    assert (Ix : In x (y :: b)) by (apply (Permutation_in _ P); left; reflexivity). destruct Ix as [->|Ix]; [reflexivity|]. specialize (Fa _ Iy). specialize (Fb _ Ix). lia. }
  subst y. f_equal. apply IH; [exact (Permutation_cons_inv P)|exact Sa|exact Sb].
Qed.
Lemma sequence_read ps kids : digits ps -> in_sequence ps kids -> map snd (sorted_by_text (map keyed ps)) = kids.
Proof.
  intros D (qs & P & S & ->). rewrite (sort_keyed _ D), map_map. destruct (isort_perm ps) as [P' S'].
  rewrite <- (sorted_unique qs (isort ps)); [reflexivity| |exact S|exact S']. rewrite <- P. exact P'.
Qed.

(** Parts. *)
Lemma service_read p s : service_says not_one p s -> sd_build p = Ok (Some s).
Proof.
  intros (T & C & D & S & A & B). unfold sd_build. rewrite T. change (eqb "{http://schemas.ogf.org/nsi/2013/12/services/point2point}p2ps" P2PS) with true. cbn match.
  rewrite (int_is _ _ _ C). cbn [Base.bind]. apply stp_parse in A. apply stp_parse in B.
  destruct (findtext "sourceSTP" p) as [x|]; [|discriminate A]. destruct (findtext "destSTP" p) as [y|]; [|discriminate B]. cbn [stp_of text_or_none] in *.
  rewrite A. cbn [Base.bind]. rewrite B. cbn [Base.bind]. rewrite (findtext_is _ _ _ D), (opt_bool_parse _ _ _ S). destruct s; reflexivity.
Qed.
Lemma states_say_read k s : states_say not_one k s -> exists e, find1 "connectionStates" k = Some e /\ states_build e = Ok s.
Proof. intros (e & F & S). exists e. split; [exact (find1_is _ _ _ F)|]. rewrite (states_read _ _ _ _ _ _ _ S). destruct s; reflexivity. Qed.
Lemma schedule_read c s : schedule_says c s -> exists e, find1 "schedule" c = Some e /\ sched_build e = Ok s.
Proof.
  intros (e & F & A & B). exists e. split; [exact (find1_is _ _ _ F)|]. unfold sched_build. rewrite (opt_time_parse _ _ _ A). cbn [Base.bind]. rewrite (opt_time_parse _ _ _ B). destruct s; reflexivity.
Qed.
Lemma part_iff t : is_crit_part t = true <-> In t ["schedule"; "serviceType"; "children"].
Proof. unfold is_crit_part. apply mem_In. Qed.
Lemma services_read c p s : one_service c p -> service_says not_one p s ->
  exists l, mapM sd_build (filter (fun k => negb (is_crit_part (e_tag k))) (e_kids c)) = Ok (Some s :: l).
Proof.
  intros [I O] S. pose proof (service_read p s S) as B. assert (Np : is_crit_part (e_tag p) = false) by (destruct S as [-> _]; reflexivity).
  assert (G : forall ks, (forall k, In k ks -> In (e_tag k) ["schedule"; "serviceType"; "children"] \/ k = p) ->
    exists l, mapM sd_build (filter (fun k => negb (is_crit_part (e_tag k))) ks) = Ok l /\ (forall x, In x l -> x = Some s) /\ (In p ks -> l <> [])).
  { induction ks as [|k ks IH]; intros H; [exists []; split; [reflexivity|]; split; [intros x []|intros []]|].
    destruct (IH (fun x X => H x (or_intror X))) as (l & E & A & N). cbn [filter]. destruct (is_crit_part (e_tag k)) eqn:Pk; cbn [negb].
    - exists l. split; [exact E|]. split; [exact A|]. intros [->|J]; [congruence|exact (N J)].
    - destruct (H k (or_introl eq_refl)) as [T|T]; [apply part_iff in T; congruence|]. subst k. exists (Some s :: l). cbn [mapM]. rewrite B. cbn [Base.bind]. rewrite E.
      split; [reflexivity|]. split; [intros x [<-|X]; auto|discriminate]. }
  destruct (G _ O) as (l & E & A & N). specialize (N I). destruct l as [|x l]; [congruence|]. rewrite (A x (or_introl eq_refl)) in E. exists l. exact E.
Qed.
Lemma version_read c rev : attr_is c "version" (Some (py_str rev)) -> int_opt (e_get "version" c) = Ok rev.
Proof. intros A. rewrite (get_is _ _ _ A). cbn [int_opt]. rewrite py_int_str. reflexivity. Qed.
Lemma find_first {B} (f : element -> B) tag kids c : first_kid tag kids c -> find (fun k => eqb (e_tag (fst k)) tag) (map (fun k => (k, f k)) kids) = Some (c, f c).
Proof.
  intros (pre & post & -> & T & N). induction pre as [|x pre IH]; cbn [app map find fst].
  - rewrite T, eqb_refl. reflexivity.
  - rewrite (eqb_neq (e_tag x) tag) by (apply N; left; reflexivity). apply IH. intros y Y. apply N. right. exact Y.
Qed.
Lemma forall2_mapM {A B} (f : A -> result B) R l m : Forall2 R l m -> (forall a b, In a l -> R a b -> f a = Ok b) -> mapM f l = Ok m.
Proof.
  intros F. induction F as [|a b l m Hab F IH]; intros H; [reflexivity|]. cbn [mapM]. rewrite (H a b (or_introl eq_refl) Hab). cbn [Base.bind].
  rewrite IH; [reflexivity|]. intros x y X. apply H. right. exact X.
Qed.
Lemma forall2_mapM' {A B C} (f : A -> result C) (g : B -> C) R l m : Forall2 R l m -> (forall a b, In a l -> R a b -> f a = Ok (g b)) -> mapM f l = Ok (map g m).
Proof.
  intros F. induction F as [|a b l m Hab F IH]; intros H; [reflexivity|]. cbn [mapM map]. rewrite (H a b (or_introl eq_refl) Hab). cbn [Base.bind].
  rewrite IH; [reflexivity|]. intros x y X. apply H. right. exact X.
Qed.

Notation crit_says := (criteria_say not_one digit False).
Notation kid_says := (child_says not_one digit False).
Lemma kids_digits l ps : Forall2 kid_says l ps -> digits ps.
Proof. intros F. induction F as [|a b l m Hab F IH]; [intros x []|]. intros x [<-|X]; [|exact (IH x X)]. inversion Hab; subst. assumption. Qed.

Definition reads (e : element) : Prop :=
  (forall c, crit_says e c -> d_crit (decode e) = Ok (text_or_none (findtext "serviceType" e), c)) /\
  (forall n ci, kid_says e (n, ci) -> d_child (decode e) = Ok (py_str n, ci)) /\
  (forall ps, Forall2 kid_says (e_kids e) ps -> d_list (decode e) = Ok (map keyed ps)).
Lemma all_read : forall e, reads e.
Proof.
  apply elem_ind'. intros t a x ks IH. rewrite Forall_forall in IH. set (e := Elem t a x ks). split; [|split].
  - intros c H. inversion H as [c0 rev sc p s kids V Sc O S Ch]; subst c0 c. rewrite decode_eq. cbn [d_crit]. cbv zeta. unfold crit_of.
    rewrite filter_map_swap, mapM_map. cbn [fst]. change (fun x0 : element => sd_build x0) with sd_build. destruct (services_read _ _ _ O S) as (l & ->). cbn [Base.bind].
    destruct (schedule_read _ _ Sc) as (se & -> & Bs). cbn [need Base.bind].
    inversion Ch as [c0 Lack _|c0 ch ps kids0 F Fk Q]; subst; [contradiction|]. rewrite (find_first decode _ _ _ F). cbn [snd].
    assert (Ich : In ch ks). { destruct F as (pre & post & Ek & _). cbn [e_kids e] in Ek. rewrite Ek. apply in_or_app. right. left. reflexivity. }
    rewrite (proj2 (proj2 (IH ch Ich)) ps Fk). cbn [Base.bind]. rewrite Bs. cbn [Base.bind]. rewrite (version_read _ _ V). cbn [Base.bind].
    rewrite (sequence_read ps kids (kids_digits _ _ Fk) Q). reflexivity.
  - intros n ci H. inversion H as [k n0 cid prov ty sts crits first T Or Nn C Pv St Fc F Ty]; subst. rewrite decode_eq. cbn [d_child]. cbv zeta. unfold child_of.
    destruct (states_say_read _ _ St) as (se & -> & Bs). cbn [need Base.bind]. rewrite Bs. cbn [Base.bind]. rewrite filter_map_swap. cbn [fst]. rewrite mapM_map. cbn [snd].
    change (filter (fun x0 : element => eqb (e_tag x0) "criteria") (e_kids e)) with (named "criteria" (e_kids e)).
    assert (M : exists l, mapM (fun k => d_crit (decode k)) (named "criteria" (e_kids e)) = Ok l /\ map snd l = crits /\ exists ll, l = (ty, hd (QC 0 (mkSched None None) None []) crits) :: ll).
    { assert (N : exists m, named "criteria" (e_kids e) = first :: m).
      { destruct F as (pre & post & -> & Tf & Np). unfold named. rewrite filter_app. cbn [filter]. rewrite Tf. change (String.eqb "criteria" "criteria") with true. cbv iota.
        assert (Z0 : filter (fun k => String.eqb (e_tag k) "criteria") pre = []).
        { clear - Np. induction pre as [|y pre IHp]; [reflexivity|]. cbn [filter]. destruct (String.eqb_spec (e_tag y) "criteria") as [Ey|_]; [destruct (Np y (or_introl eq_refl) Ey)|].
          apply IHp. intros z Hz. apply Np. right. exact Hz. }
        rewrite Z0. cbn [app]. eauto. }
      assert (Sub : forall k, In k (named "criteria" (e_kids e)) -> In k ks) by (intros k Hk; apply filter_In in Hk as [Hk _]; exact Hk).
      revert Fc Sub N. generalize (named "criteria" (e_kids e)). intros es Fc Sub [m ->]. inversion Fc as [|? c ? cs Hc Hcs]; subst.
      assert (R1 : d_crit (decode first) = Ok (text_or_none (findtext "serviceType" first), c)) by (apply (IH first (Sub first (or_introl eq_refl))); exact Hc).
      rewrite (findtext_is _ _ _ Ty) in R1. cbn [text_or_none] in R1.
      assert (R2 : exists l, mapM (fun k => d_crit (decode k)) m = Ok l /\ map snd l = cs).
      { clear - IH Sub Hcs. induction Hcs as [|k c0 m cs Hk Hcs IHm]; [exists []; split; reflexivity|].
        destruct IHm as (l & E & E2). { intros k0 [->|Hk0]; apply Sub; [left; reflexivity|right; right; exact Hk0]. }
        exists ((text_or_none (findtext "serviceType" k), c0) :: l). cbn [mapM]. rewrite (proj1 (IH k (Sub k (or_intror (or_introl eq_refl)))) c0 Hk). cbn [Base.bind]. rewrite E. cbn [Base.bind map snd]. rewrite E2. split; reflexivity. }
      destruct R2 as (l & E & E2). exists ((ty, c) :: l). cbn [mapM]. rewrite R1. cbn [Base.bind]. rewrite E. split; [reflexivity|]. cbn [map snd hd]. rewrite E2. split; [reflexivity|eauto]. }
    destruct M as (l & -> & Es & ll & ->). cbn [Base.bind]. rewrite (get_is _ _ _ Or), (findtext_is _ _ _ C), (findtext_is _ _ _ Pv). cbn [text_or_none]. rewrite Es. reflexivity.
  - intros ps F. rewrite decode_eq. cbn [d_list]. cbv zeta. rewrite mapM_map. cbn [snd].
    apply (forall2_mapM' _ keyed kid_says); [exact F|]. intros k [n ci] Hk H. exact (proj1 (proj2 (IH k Hk)) n ci H).
Qed.

Lemma opt_number_read tag e o : opt_number_is tag (e_kids e) o -> opt_int (findtext tag e) = Ok o.
Proof. intros F. rewrite (findtext_is _ _ _ F). destruct o as [n|]; [|reflexivity]. cbn [option_map opt_int int_opt]. rewrite py_int_str. reflexivity. Qed.
Lemma reservation_read prov e ci : reservation_says not_one crit_says prov e ci -> result_build prov e = Ok ci.
Proof.
  intros [e0 cid gid desc crits req sts nid rid T C G D Fc R St Nn Rr]. unfold result_build. rewrite named_findall.
  assert (M : exists l, mapM (fun k => d_crit (decode k)) (named "criteria" (e_kids e0)) = Ok l /\ map snd l = crits).
  { clear - Fc. induction Fc as [|k c m cs Hk Hcs IHm]; [exists []; split; reflexivity|]. destruct IHm as (l & E & E2).
    exists ((text_or_none (findtext "serviceType" k), c) :: l). cbn [mapM]. rewrite (proj1 (all_read k) c Hk). cbn [Base.bind]. rewrite E. cbn [Base.bind map snd]. rewrite E2. split; reflexivity. }
  destruct M as (l & -> & <-). cbn [Base.bind]. destruct (states_say_read _ _ St) as (se & -> & Bs). cbn [need Base.bind]. rewrite Bs. cbn [Base.bind].
  rewrite (opt_number_read _ _ _ Nn). cbn [Base.bind]. rewrite (opt_number_read _ _ _ Rr). cbn [Base.bind].
  rewrite (findtext_is _ _ _ C), (findtext_is _ _ _ G), (findtext_is _ _ _ D), (findtext_is _ _ _ R). reflexivity.
Qed.
Lemma summary_read prov e ci : reservation_says not_one (summary_says not_one) prov e ci -> summary_result_build prov e = Ok ci.
Proof.
  intros [e0 cid gid desc crits req sts nid rid T C G D Fc R St Nn Rr]. unfold summary_result_build. rewrite named_findall.
  rewrite (forall2_mapM summary_crit_build _ _ _ Fc).
  - cbn [Base.bind]. destruct (states_say_read _ _ St) as (se & -> & Bs). cbn [need Base.bind]. rewrite Bs. cbn [Base.bind].
    rewrite (opt_number_read _ _ _ Nn). cbn [Base.bind]. rewrite (opt_number_read _ _ _ Rr). cbn [Base.bind].
    rewrite (findtext_is _ _ _ C), (findtext_is _ _ _ G), (findtext_is _ _ _ D), (findtext_is _ _ _ R). reflexivity.
  - intros c q _ [c0 rev sc p s V Sc O S]. unfold summary_crit_build. destruct (services_read _ _ _ O S) as (l & ->). cbn [Base.bind].
    destruct (schedule_read _ _ Sc) as (se & -> & Bs). cbn [need Base.bind]. rewrite Bs. cbn [Base.bind]. rewrite (version_read _ _ V). reflexivity.
Qed.
Theorem reads_recursive fresh env kids e prov l : message env kids [e] -> header_sound kids -> e_tag e = "{CT}queryRecursiveConfirmed" -> field "providerNSA" kids (Some prov) ->
  answer_says not_one crit_says prov e l ->
  exists d, header_says fresh kids d /\ requester_service fresh (action "queryRecursiveConfirmed", env) = Some (Ok (RResults "queryRecursiveConfirmed" d l)).
Proof.
  intros M H T Pv A. destruct (header_read fresh env kids [e] M H) as (d & P & D). exists d. split; [exact D|].
  rewrite (to_requester_ fresh env d e (BResults true e) P) with (f := on_results "queryRecursiveConfirmed" true); [| |reflexivity|reflexivity].
  - assert (Ed : d_provider d = Some prov) by (destruct D as (_ & D & _); exact (field_unique _ _ _ _ D Pv)).
    cbn [on_results]. change (Bool.eqb true true) with true. cbv iota. rewrite Ed. cbn [text_or_none]. unfold recursive_build. rewrite named_findall.
    rewrite (forall2_mapM (result_build prov) _ _ _ A); [reflexivity|]. intros a b _ R. exact (reservation_read prov a b R).
  - rewrite (build_of e _ _ T eq_refl). reflexivity.
Qed.
Theorem reads_summary fresh env kids e prov l : message env kids [e] -> header_sound kids -> e_tag e = "{CT}querySummaryConfirmed" -> field "providerNSA" kids (Some prov) ->
  answer_says not_one (summary_says not_one) prov e l ->
  exists d, header_says fresh kids d /\ requester_service fresh (action "querySummaryConfirmed", env) = Some (Ok (RResults "querySummaryConfirmed" d l)).
Proof.
  intros M H T Pv A. destruct (header_read fresh env kids [e] M H) as (d & P & D). exists d. split; [exact D|].
  rewrite (to_requester_ fresh env d e (BResults false e) P) with (f := on_results "querySummaryConfirmed" false); [| |reflexivity|reflexivity].
  - assert (Ed : d_provider d = Some prov) by (destruct D as (_ & D & _); exact (field_unique _ _ _ _ D Pv)).
    cbn [on_results]. change (Bool.eqb false false) with true. cbv iota. rewrite Ed. cbn [text_or_none]. unfold summary_build. rewrite named_findall.
    rewrite (forall2_mapM (summary_result_build prov) _ _ _ A); [reflexivity|]. intros a b _ R. exact (summary_read prov a b R).
  - rewrite (build_of e _ _ T eq_refl). reflexivity.
Qed.

(** Writing. *)
Notation wcrit := (criteria_say not_one nonneg False).
Notation wkid := (child_says not_one nonneg False).
Lemma field_of tag e v : findtext tag e = v -> field tag (e_kids e) v.
Proof. intros <-. destruct e as [r a t kids]. apply findtext_field. Qed.
Lemma first_of tag e c : find1 tag e = Some c -> first_kid tag (e_kids e) c.
Proof. intros E. destruct (find1_cases tag e) as [(c' & E' & F)|E']; [|congruence]. rewrite E in E'. injection E' as <-. exact F. Qed.
Lemma bool_written b : not_one (bool_text b) b.
Proof. destruct b; (split; [constructor|discriminate]). Qed.
Lemma urn_written s : stp_ok s -> exists r, urn s = "urn:ogf:network:" +++ r /\ contains "urn:ogf:network:" r = false /\ stp_text r s.
Proof.
  intros K. assert (exists r, urn s = URN_NETWORK +++ r /\ contains URN_NETWORK r = false) as (r & E & C).
  { destruct K as (Hc & H1 & H2 & H3 & Hl). destruct s as [net port ol]. cbn [s_network s_port s_label] in *. destruct URN_facts as (Hq & Hcol & Hne).
    unfold urn, base_urn. cbn [s_network s_port s_label]. destruct ol as [l|]; cbn [label_suffix].
    - destruct (Hl l eq_refl) as [Ht Hwf]. eexists. split; [rewrite append_assoc; reflexivity|].
      change ("?" +++ after_hash (ltype l) +++ "=" +++ label_value l) with (String "?" (after_hash (ltype l) +++ "=" +++ label_value l)).
      rewrite contains_cross by assumption. rewrite Hc. cbn [orb]. apply (contains_lacks ":"); [exact Hcol|]. rewrite !shas_app, label_value_lacks by reflexivity.
      destruct Ht as [->| ->]; reflexivity.
    - eexists. split; [rewrite append_nil_r; reflexivity|exact Hc]. }
  exists r. split; [exact E|]. split; [exact C|]. apply c23_accepts; [exact C|]. rewrite <- E. apply c23_roundtrip; apply K.
Qed.
Lemma sched_written sc : sched_ok sc -> exists e, sched_xml sc = Ok e /\ e_tag e = "schedule" /\
  opt_time_is "startTime" (e_kids (wire e)) (sc_start sc) /\ opt_time_is "endTime" (e_kids (wire e)) (sc_end sc).
Proof.
  intros [H1 H2].
  assert (W : forall o, (forall t, o = Some t -> time_exists t) -> exists x, opt_time o = Ok x /\ forall tag e, findtext tag e = x -> opt_time_is tag (e_kids e) o).
  { intros [t|] H.
    - destruct (written_time t (H t eq_refl)) as (s & E & T). exists (Some s). cbn [opt_time]. rewrite E. split; [reflexivity|]. intros tag e F. exists s. split; [exact (field_of _ _ _ F)|exact T].
    - exists None. split; [reflexivity|]. intros tag e F. exact (field_of _ _ _ F). }
  destruct (W _ H1) as (a & A1 & A2). destruct (W _ H2) as (b & B1 & B2). unfold sched_xml. rewrite A1. cbn [Base.bind]. rewrite B1. cbn [Base.bind].
  eexists. split; [reflexivity|]. split; [reflexivity|].
  split; [apply A2|apply B2]; cbn [wire]; rewrite map_app, !wire_opt_leaf; destruct a, b; cbn [app]; ft; reflexivity.
Qed.
Lemma sd_written p : p2p_ok p -> exists e, sd_xml (Some p) = Ok e /\ service_says not_one (wire e) p.
Proof.
  intros [H1 H2]. eexists. split; [reflexivity|]. destruct (urn_written _ H1) as (r1 & E1 & C1 & T1). destruct (urn_written _ H2) as (r2 & E2 & C2 & T2).
  destruct p as [src dst cap dir sym]. cbn [p_src p_dst p_cap p_dir p_sym] in *. rewrite E1, E2.
  cbn [wire]. rewrite !map_app, wire_opt_leaf. cbn [map]. rewrite !wire_leaf_some.
  match goal with |- service_says _ ?e _ => set (w := e) end.
  split; [reflexivity|]. cbn [p_src p_dst p_cap p_dir p_sym]. split; [apply field_of; unfold w; cbn [app]; ft; reflexivity|].
  split; [apply field_of; unfold w; destruct sym; cbn [option_map app]; ft; reflexivity|].
  split; [destruct sym as [b|]; [exists (bool_text b); split; [|apply bool_written]|]; apply field_of; unfold w; cbn [option_map app]; ft; reflexivity|].
  split; [exists r1|exists r2]; (split; [apply field_of; unfold w; destruct sym; cbn [option_map app]; ft; reflexivity|split; assumption]).
Qed.
Lemma states_written s : states_are not_one (wire (states_xml s)) (cs_r s) (cs_p s) (cs_l s) (cs_act s) (cs_ver s) (cs_cons s).
Proof.
  destruct s as [r p l act ver cons]. unfold states_xml. cbn [cs_r cs_p cs_l cs_act cs_ver cs_cons]. cbn [wire map]. rewrite !wire_leaf_some.
  split; [apply field_of; ft; reflexivity|]. split; [apply field_of; ft; reflexivity|]. split; [apply field_of; ft; reflexivity|].
  eexists. split; [apply first_of; ft; reflexivity|].
  split; [exists (bool_text act); split; [apply field_of; ft; reflexivity|apply bool_written]|]. split; [apply field_of; ft; reflexivity|].
  exists (bool_text cons). split; [apply field_of; ft; reflexivity|apply bool_written].
Qed.
Lemma one_attr t n v x ks : attr_is (Elem t [(n, v)] x ks) n (Some v).
Proof. split; [unfold attrs_once; cbn; constructor; [intros []|constructor]|left; reflexivity]. Qed.

Section Width.
  Variable w : nat.
  Definition crit_w (c : crit) : Prop := crit_ok w c -> exists e, crit_xml c = Ok e /\ e_tag e = "criteria" /\ wcrit (wire e) (seen_crit c) /\ field "serviceType" (e_kids (wire e)) (Some P2PS).
  Definition child_w (c : cinfo) : Prop := child_ok w c -> forall idx, 0 <= idx -> exists e, child_xml idx c = Ok e /\ wkid (wire e) (idx, seen_child c).
  Lemma crits_w l : Forall crit_w l -> Forall (crit_ok w) l -> exists es, crits_xml l = Ok es /\ (forall e, In e es -> e_tag e = "criteria") /\
    Forall2 wcrit (map wire es) (map seen_crit l) /\ forall e, In e es -> field "serviceType" (e_kids (wire e)) (Some P2PS).
  Proof.
    induction l as [|c l IH]; intros G K; [exists []; repeat split; try constructor; intros e []|]. inversion G as [|? ? G1 G2]. inversion K as [|? ? K1 K2]. subst.
    destruct (G1 K1) as (e & E1 & E2 & E3 & E4). destruct (IH G2 K2) as (es & F1 & F2 & F3 & F4). exists (e :: es). cbn [crits_xml]. rewrite E1. cbn [Base.bind]. rewrite F1.
    split; [reflexivity|]. split; [intros x [<-|Hx]; auto|]. split; [cbn [map]; constructor; assumption|]. intros x [<-|Hx]; auto.
  Qed.
  Lemma kids_w l : Forall child_w l -> Forall (child_ok w) l -> forall idx, 0 <= idx -> exists es ps, kids_xml idx l = Ok es /\ Forall2 wkid (map wire es) ps /\
    map snd ps = map seen_child l /\ StronglySorted (fun a b => fst a < fst b) ps /\ forall x, In x ps -> idx <= fst x.
  Proof.
    induction l as [|c l IH]; intros G K idx Hi; [exists [], []; repeat split; try constructor; intros x []|]. inversion G as [|? ? G1 G2]. inversion K as [|? ? K1 K2]. subst.
    destruct (G1 K1 idx Hi) as (e & E1 & E2). destruct (IH G2 K2 (idx + 1)) as (es & ps & F1 & F2 & F3 & F4 & F5); [lia|].
    exists (e :: es), ((idx, seen_child c) :: ps). cbn [kids_xml]. rewrite E1. cbn [Base.bind]. rewrite F1. split; [reflexivity|]. split; [cbn [map]; constructor; assumption|].
    split; [cbn [map snd]; rewrite F3; reflexivity|]. split; [constructor; [exact F4|]; apply Forall_forall; intros x Hx; specialize (F5 x Hx); cbn [fst]; lia|].
    intros x [<-|Hx]; [cbn [fst]; lia|]. specialize (F5 x Hx). lia.
  Qed.
  Lemma named_criteria es : (forall e, In e es -> e_tag e = "criteria") -> named "criteria" (map wire es) = map wire es.
  Proof. intros H. apply (by_tag_all "criteria" (map wire es)). intros e He. apply in_map_iff in He as (x & <- & Hx). rewrite wire_tag. apply H, Hx. Qed.
  Lemma all_w : (forall c, child_w c) /\ (forall c, crit_w c).
  Proof.
    assert (HC : forall cid gid desc ty crits prov req sts nid rid, Forall crit_w crits -> child_w (CI cid gid desc ty crits prov req sts nid rid)).
    { intros cid gid desc ty crits prov req sts nid rid G K idx Hi. inversion K as [? ? ? ? ? ? ? ? ? ? N F]; subst. destruct (crits_w crits G F) as (es & E1 & E2 & E3 & E4).
      rewrite child_xml_eq, E1. cbn [Base.bind]. eexists. split; [reflexivity|]. cbn [app wire map]. rewrite !wire_leaf_some. cbn [seen_child].
      assert (Nm : forall ks, named "criteria" (wleaf "connectionId" cid :: wleaf "providerNSA" prov :: wire (states_xml sts) :: ks) = named "criteria" ks) by reflexivity.
      destruct es as [|e0 es]. { inversion E3. destruct crits; [congruence|discriminate]. }
      apply say_child with (first := wire e0).
      - reflexivity.
      - apply one_attr.
      - exact Hi.
      - apply field_of. ft. reflexivity.
      - apply field_of. ft. reflexivity.
      - exists (wire (states_xml sts)). split; [apply first_of; ft; reflexivity|apply states_written].
      - cbn [e_kids]. rewrite Nm, named_criteria by exact E2. exact E3.
      - cbn [e_kids map]. exists [wleaf "connectionId" cid; wleaf "providerNSA" prov; wire (states_xml sts)], (map wire es). split; [reflexivity|].
        split; [rewrite wire_tag; apply E2; left; reflexivity|]. intros x [<-|[<-|[<-|[]]]]; rewrite ?wleaf_tag, ?wire_tag; discriminate.
      - apply E4. left. reflexivity. }
    assert (HQ : forall rev sc sd kids, Forall child_w kids -> crit_w (QC rev sc sd kids)).
    { intros rev sc sd kids G K. inversion K as [? ? p ? S P L F]; subst. destruct (sched_written sc S) as (se & S1 & S2 & S3 & S4). destruct (sd_written p P) as (de & D1 & D2).
      destruct (kids_w kids G F 0) as (es & ps & E1 & E2 & E3 & E4 & _); [lia|]. rewrite crit_xml_eq, S1. cbn [Base.bind]. rewrite E1. cbn [Base.bind]. rewrite D1. cbn [Base.bind].
      eexists. split; [reflexivity|]. split; [reflexivity|]. cbn [wire map]. rewrite wire_leaf_some. fold (map wire es).
      assert (Td : e_tag (wire de) = P2PS) by exact (proj1 D2). assert (Ts : e_tag (wire se) = "schedule") by (rewrite wire_tag; exact S2). split.
      - cbn [seen_crit]. apply say_criteria with (p := wire de); [apply one_attr| | |exact D2|].
        + exists (wire se). split; [|split; assumption]. exists [], [wleaf "serviceType" P2PS; Elem "children" [] None (map wire es); wire de]. split; [reflexivity|]. split; [exact Ts|intros x []].
        + split; [right; right; right; left; reflexivity|]. intros k [<-|[<-|[<-|[<-|[]]]]]; [left; rewrite Ts; left; reflexivity|left; right; left; reflexivity|left; right; right; left; reflexivity|right; reflexivity].
        + apply say_children with (ch := Elem "children" [] None (map wire es)) (ps := ps).
          * exists [wire se; wleaf "serviceType" P2PS], [wire de]. split; [reflexivity|]. split; [reflexivity|]. intros x [<-|[<-|[]]]; [rewrite Ts; discriminate|discriminate].
          * exact E2.
          * exists ps. split; [reflexivity|]. split; [exact E4|]. symmetry. exact E3.
      - exists (wleaf "serviceType" P2PS). split; [|left; reflexivity]. exists [wire se], [Elem "children" [] None (map wire es); wire de]. split; [reflexivity|]. split; [reflexivity|].
        intros x [<-|[]]. rewrite Ts. discriminate. }
    split; [apply cinfo_ind' with (Q := crit_w)|apply crit_ind' with (P := child_w)]; assumption.
  Qed.
  Lemma find1_skip tag t a x es post : (forall e, In e es -> e_tag e <> tag) -> find1 tag (Elem t a x (es ++ post)) = find1 tag (Elem t a x post).
  Proof. induction es as [|e es IH]; intros H; [reflexivity|]. cbn [app]. rewrite find1_miss by (apply H; left; reflexivity). apply IH. intros y Y. apply H. right. exact Y. Qed.
  Lemma res_written criterion prov cid gid desc es crits req sts nid rid : (forall e, In e es -> e_tag e = "criteria") -> Forall2 criterion (map wire es) crits ->
    reservation_says not_one criterion prov (wire (Elem "reservation" [] None
      ([leaf "connectionId" (Some cid)] ++ opt_leaf "globalReservationId" gid ++ opt_leaf "description" desc ++ es ++ [leaf "requesterNSA" (Some req); states_xml sts] ++
       opt_leaf "notificationId" (option_map py_str nid) ++ opt_leaf "resultId" (option_map py_str rid))))
      (CI cid gid desc "http://services.ogf.org/nsi/2013/07/descriptions/EVTS.A-GOLE" crits prov (Some req) sts nid rid).
  Proof.
    intros T F. cbn [wire]. rewrite !map_app, !wire_opt_leaf. cbn [map]. rewrite !wire_leaf_some.
    assert (Wes : forall e, In e (map wire es) -> e_tag e = "criteria"). { intros e He. apply in_map_iff in He as (x & <- & Hx). rewrite wire_tag. apply T, Hx. }
    assert (Sk : forall tag ks, tag <> "criteria" -> find1 tag (Elem "reservation" [] None (map wire es ++ ks)) = find1 tag (Elem "reservation" [] None ks)).
    { intros tag ks N. apply find1_skip. intros e He. rewrite (Wes e He). congruence. }
    assert (Sf : forall tag ks, tag <> "criteria" -> findtext tag (Elem "reservation" [] None (map wire es ++ ks)) = findtext tag (Elem "reservation" [] None ks)).
    { intros tag ks N. unfold findtext. rewrite Sk by exact N. reflexivity. }
    constructor; [reflexivity| | | | | | | |].
    1-3, 5, 7-8: apply field_of; destruct gid, desc, nid, rid; cbn [option_map app]; ft; rewrite ?Sf by discriminate; cbn [app]; ft; reflexivity.
    - cbn [e_kids]. unfold named. rewrite !filter_app. change (filter (fun k => String.eqb (e_tag k) "criteria") (map wire es)) with (named "criteria" (map wire es)).
      rewrite named_criteria by exact T. destruct gid, desc, nid, rid; cbn; rewrite app_nil_r; exact F.
    - exists (wire (states_xml sts)). split; [|apply states_written]. apply first_of. destruct gid, desc; cbn [option_map app]; ft; rewrite Sk by discriminate; cbn [app]; ft; reflexivity.
  Qed.
  Lemma answer_written f criterion g prov l : (forall c, top_ok w c -> exists e, f c = Ok e /\ e_tag e = "reservation" /\ reservation_says not_one criterion prov (wire e) (g c)) ->
    Forall (top_ok w) l -> exists es, mapM f l = Ok es /\ (forall e, In e es -> e_tag e = "reservation") /\ forall t, answer_says not_one criterion prov (wire (Elem t [] None es)) (map g l).
  Proof.
    intros H K. assert (exists es, mapM f l = Ok es /\ (forall e, In e es -> e_tag e = "reservation") /\ Forall2 (reservation_says not_one criterion prov) (map wire es) (map g l)) as (es & E1 & E2 & E3).
    { induction K as [|c l Kc K IH]; [exists []; repeat split; [intros e []|constructor]|]. destruct (H c Kc) as (e & A1 & A2 & A3). destruct IH as (es & B1 & B2 & B3).
      exists (e :: es). cbn [mapM]. rewrite A1. cbn [Base.bind]. rewrite B1. split; [reflexivity|]. split; [intros x [<-|Hx]; auto|]. cbn [map]. constructor; assumption. }
    exists es. split; [exact E1|]. split; [exact E2|]. intros t. unfold answer_says. cbn [wire e_kids].
    assert (N : named "reservation" (map wire es) = map wire es). { apply (by_tag_all "reservation"). intros e He. apply in_map_iff in He as (x & <- & Hx). rewrite wire_tag. apply E2, Hx. }
    rewrite N. exact E3.
  Qed.
  Theorem recursive_written prov l : Forall (top_ok w) l -> exists es, recursive_xml l = Ok (Elem "queryRecursiveConfirmed" [] None es) /\ (forall e, In e es -> e_tag e = "reservation") /\
    forall t, answer_says not_one wcrit prov (wire (Elem t [] None es)) (map (seen prov) l).
  Proof.
    intros K. destruct (answer_written result_xml wcrit (seen prov) prov l) as (es & E & T & A); [|exact K|].
    - intros [cid gid desc ty crits pv req sts nid rid] [R F]. destruct req as [req|]; [|congruence].
      destruct (crits_w crits) as (xs & E1 & E2 & E3 & _); [apply Forall_forall; intros x _; apply all_w|exact F|]. unfold result_xml. rewrite <- crits_mapM, E1. cbn [Base.bind].
      eexists. split; [reflexivity|]. split; [reflexivity|]. exact (res_written wcrit prov cid gid desc xs _ req sts nid rid E2 E3).
    - exists es. unfold recursive_xml. rewrite E. split; [reflexivity|]. split; assumption.
  Qed.
  Theorem summary_written prov tag l : Forall (top_ok w) l -> exists es, summary_xml tag l = Ok (Elem tag [] None es) /\ (forall e, In e es -> e_tag e = "reservation") /\
    forall t, answer_says not_one (summary_says not_one) prov (wire (Elem t [] None es)) (map (brief prov) l).
  Proof.
    intros K. destruct (answer_written summary_result_xml (summary_says not_one) (brief prov) prov l) as (es & E & T & A); [|exact K|].
    - intros [cid gid desc ty crits pv req sts nid rid] [R F]. destruct req as [req|]; [|congruence].
      assert (exists xs, mapM summary_crit_xml crits = Ok xs /\ (forall e, In e xs -> e_tag e = "criteria") /\ Forall2 (summary_says not_one) (map wire xs) (map brief_crit crits)) as (xs & E1 & E2 & E3).
      { induction F as [|c crits Kc F IH]; [exists []; repeat split; [intros e []|constructor]|]. destruct IH as (xs & B1 & B2 & B3). inversion Kc as [rev sc p kids S P L Fk]; subst.
        destruct (sched_written sc S) as (se & S1 & S2 & S3 & S4). destruct (sd_written p P) as (de & D1 & D2). cbn [mapM summary_crit_xml]. rewrite S1. cbn [Base.bind]. rewrite D1. cbn [Base.bind]. rewrite B1. cbn [Base.bind].
        eexists. split; [reflexivity|]. split; [intros x [<-|Hx]; [reflexivity|auto]|]. cbn [map]. constructor; [|exact B3]. cbn [brief_crit wire map]. rewrite wire_leaf_some.
        assert (Ts : e_tag (wire se) = "schedule") by (rewrite wire_tag; exact S2).
        apply say_summary with (p := wire de); [apply one_attr| | |exact D2].
        - exists (wire se). split; [|split; assumption]. eexists [], _. split; [reflexivity|]. split; [exact Ts|intros x []].
        - split; [right; right; right; left; reflexivity|]. intros k [<-|[<-|[<-|[<-|[]]]]]; [left; rewrite Ts; left; reflexivity|left; right; left; reflexivity|left; right; right; left; reflexivity|right; reflexivity]. }
      unfold summary_result_xml. rewrite E1. cbn [Base.bind]. eexists. split; [reflexivity|]. split; [reflexivity|]. exact (res_written (summary_says not_one) prov cid gid desc xs _ req sts nid rid E2 E3).
    - exists es. unfold summary_xml. rewrite E. split; [reflexivity|]. split; assumption.
  Qed.
End Width.
