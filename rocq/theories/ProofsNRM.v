(** Proofs about the port configuration parser. *)
From Verif Require Import Base BaseProofs ModelLabel ModelAuthz ModelNRM SpecNRM.

(** ** Words *)
Lemma spaced_sound n : forall s, (String.length s <= n)%nat -> spaced s (filter nonblank (split_on " " s)).
Proof.
  induction n as [|n IH]; intros s Hn.
  - destruct s; [|cbn in Hn; lia]. cbn. constructor.
  - destruct (split1 " " s) as [[a b]|] eqn:E.
    + apply split1_Some in E as [-> Ha]. rewrite split_on_app by exact Ha.
      assert (Hb : (String.length b <= n)%nat).
      { clear -Hn. induction a as [|c a IHa]; cbn [append String.length] in Hn; [lia|]. apply IHa. lia. }
      destruct a as [|c a]; cbn [filter nonblank append].
      * apply spaced_space, IH, Hb.
      * apply (spaced_word (String c a)); [discriminate|exact Ha|apply IH, Hb].
    + apply split1_None in E. rewrite split_on_none by exact E. destruct s as [|c s]; cbn [filter nonblank]; [constructor|].
      apply spaced_last; [discriminate|exact E].
Qed.
Lemma spaced_complete s ws : spaced s ws -> filter nonblank (split_on " " s) = ws.
Proof.
  induction 1 as [|s ws H IH|w H1 H2|w s ws H1 H2 H IH].
  - reflexivity.
  - cbn [split_on]. rewrite Ascii.eqb_refl. exact IH.
  - rewrite split_on_none by exact H2. destruct w; [congruence|]. reflexivity.
  - rewrite split_on_app by exact H2. destruct w; [congruence|]. cbn [filter nonblank]. f_equal. exact IH.
Qed.
Lemma spaced_iff s ws : filter nonblank (split_on " " s) = ws <-> spaced s ws.
Proof. split; [intros <-; eapply spaced_sound; reflexivity|apply spaced_complete]. Qed.

(** ** Remote *)
Lemma span_not_spec c s a b : span_not c s = (a, b) -> s = a +++ b /\ shas c a = false /\ (b = "" \/ exists r, b = String c r).
Proof.
  revert a b; induction s as [|d s IH]; intros a b; cbn [span_not].
  - intros [= <- <-]. auto.
  - destruct (Ascii.eqb_spec d c) as [->|Hn].
    + intros [= <- <-]. split; [reflexivity|]. split; [reflexivity|]. right. eauto.
    + destruct (span_not c s) as [a' b'] eqn:E. intros [= <- <-]. destruct (IH a' b' eq_refl) as (-> & H1 & H2).
      split; [reflexivity|]. split; [|exact H2]. rewrite shas_cons, H1. destruct (Ascii.eqb_spec c d); [congruence|reflexivity].
Qed.
Lemma span_not_app c a r : shas c a = false -> span_not c (a +++ String c r) = (a, String c r).
Proof.
  induction a as [|d a IH]; cbn [append span_not].
  - rewrite Ascii.eqb_refl. reflexivity.
  - rewrite shas_cons, orb_false_iff. intros [H1 H2]. rewrite Ascii.eqb_sym, H1, (IH H2). reflexivity.
Qed.

Lemma rx_suffix_Some s i o : rx_suffix s = Some (i, o) ->
  exists c i' d o' tail, i = String c i' /\ o = String d o' /\ shas "|" i' = false /\ shas ")" o' = false /\
    s = "(" +++ String c i' +++ "|" +++ String d o' +++ ")" +++ tail.
Proof.
  unfold rx_suffix. destruct s as [|p [|c r]]; try discriminate.
  destruct (Ascii.eqb_spec p "(") as [->|]; cbn [negb]; [|discriminate].
  destruct (split1 "|" r) as [[a [|d r2]]|] eqn:E; try discriminate.
  destruct (split1 ")" r2) as [[b tl]|] eqn:E2; [|discriminate]. intros [= <- <-].
  apply split1_Some in E as [-> Ha]. apply split1_Some in E2 as [-> Hb].
  exists c, a, d, b, tl. repeat (split; [first [reflexivity|assumption]|]). reflexivity.
Qed.
Lemma rx_suffix_ok c i d o tail : shas "|" i = false -> shas ")" o = false ->
  rx_suffix ("(" +++ String c i +++ "|" +++ String d o +++ ")" +++ tail) = Some (String c i, String d o).
Proof.
  intros Hi Ho. cbn [append rx_suffix]. change (negb (Ascii.eqb "(" "(")) with false. cbv iota.
  rewrite split1_app by exact Hi. rewrite split1_app by exact Ho. reflexivity.
Qed.

(** what nrm.py:115-130 makes of a remote specification *)
Definition remote_fields (spec : string) : result (option string * option string * option string * option string) :=
  do! remote <- parse_remote spec;
  match remote with
  | None => Ok (None, None, None, None)
  | Some (net, port, None) => Err ENRMSpecification
  | Some (net, port, Some (i, o)) =>
      let base := net +++ ":" +++ port in
      Ok (Some net, Some port, Some (base +++ i), Some (base +++ o))
  end.
Definition fields_of (rm : option (string * string * string * string)) :=
  match rm with
  | None => (None, None, None, None)
  | Some (net, port, i, o) => (Some net, Some port, Some i, Some o)
  end.

Lemma remote_iff spec f : remote_fields spec = Ok f <-> exists rm, remote_means spec rm /\ f = fields_of rm.
Proof.
  unfold remote_fields, parse_remote. split.
  - destruct (eqb_ok spec "-") as [->|Hn]; cbn [bind].
    + intros [= <-]. exists None. split; [constructor|reflexivity].
    + destruct (split1 "#" spec) as [[net r]|] eqn:E; cbn [bind]; [|discriminate].
      destruct (span_not "(" r) as [port tail] eqn:Es.
      destruct (eqb_ok net "") as [|Hnet]; cbn [orb bind]; [discriminate|].
      destruct (eqb_ok port "") as [|Hport]; cbn [orb bind]; [discriminate|].
      destruct (rx_suffix tail) as [[i o]|] eqn:Ex; [|discriminate]. intros [= <-].
      apply split1_Some in E as [-> Hnn]. apply span_not_spec in Es as (-> & Hp & _).
      apply rx_suffix_Some in Ex as (c & i' & d & o' & tl & -> & -> & Hi & Ho & ->).
      exists (Some (net, port, net +++ ":" +++ port +++ String c i', net +++ ":" +++ port +++ String d o')). split.
      * apply remote_some; assumption.
      * cbn [fields_of]. rewrite !append_assoc. reflexivity.
  - intros (rm & Hm & ->). destruct Hm as [|net port c i d o tail H1 H2 H3 H4 H5 H6]; [reflexivity|].
    rewrite eqb_neq.
    2:{ intros E. destruct net as [|x net]; [congruence|]. cbn [append] in E. injection E as _ E.
        destruct net; discriminate E. }
    change (net +++ "#" +++ port +++ "(" +++ String c i +++ "|" +++ String d o +++ ")" +++ tail)
      with (net +++ String "#" (port +++ "(" +++ String c i +++ "|" +++ String d o +++ ")" +++ tail)).
    rewrite split1_app by exact H2.
    change ("(" +++ String c i +++ "|" +++ String d o +++ ")" +++ tail)
      with (String "(" (String c i +++ "|" +++ String d o +++ ")" +++ tail)).
    rewrite span_not_app by exact H4. rewrite (eqb_neq net) by exact H1. rewrite (eqb_neq port) by exact H3. cbn [orb bind].
    change (String "(" (String c i +++ "|" +++ String d o +++ ")" +++ tail))
      with ("(" +++ String c i +++ "|" +++ String d o +++ ")" +++ tail).
    rewrite rx_suffix_ok by assumption. cbn [fields_of]. rewrite !append_assoc. reflexivity.
Qed.

(** ** Label *)
Lemma labelspec_iff spec l : parse_label_spec spec = Ok l <-> labelspec_means spec l.
Proof.
  unfold parse_label_spec. split.
  - destruct (eqb_ok spec "-") as [->|Hn]; [intros [= <-]; constructor|].
    destruct (split1 ":" spec) as [[t v]|] eqn:E; [|discriminate]. apply split1_Some in E as [-> Ht].
    destruct (aget t LABEL_TYPES) as [ty|] eqn:Ea; [|discriminate].
    destruct (label_of_str ty v) as [lb|] eqn:El; cbn [bind]; [|discriminate]. intros [= <-].
    cbn [LABEL_TYPES aget] in Ea.
    destruct (eqb_ok t "vlan") as [->|_]; [injection Ea as <-|]; [apply (labelspec_some "vlan"); auto|].
    destruct (eqb_ok t "mpls") as [->|_]; [injection Ea as <-|discriminate]. apply (labelspec_some "mpls"); auto.
  - intros [|t v lb Ht Hl]; [reflexivity|]. 
    change (t +++ ":" +++ v) with (t +++ String ":" v).
    rewrite eqb_neq by (destruct Ht as [->| ->]; discriminate).
    rewrite split1_app by (destruct Ht as [->| ->]; reflexivity).
    destruct Ht as [->| ->]; cbn [aget LABEL_TYPES]; rewrite ?eqb_refl; rewrite ?(eqb_neq "mpls" "vlan") by discriminate; rewrite ?eqb_refl, Hl; reflexivity.
Qed.

(** ** Attributes *)
Notation acc_t := (list rule * list (string * Z) * bool)%type.
Definition apply_attr (acc : acc_t) (a : attr) : acc_t :=
  let '(rules, vecs, restricted) := acc in
  match a with
  | ARule k v => (rules ++ [mkRule k v], vecs, restricted)
  | AVector n w => (rules, aset n w vecs, restricted)
  | ARestrict => (rules, vecs, true)
  end.

Lemma auth_attrs_In k : mem k AUTH_ATTRIBUTES = true <-> In k ["nsa"; "user"; "group"; "token"; "hostdn"].
Proof. rewrite mem_In. reflexivity. Qed.

Lemma attr_step_iff acc aa acc' : attr_step acc aa = Ok acc' <-> exists a, attr_means aa a /\ acc' = apply_attr acc a.
Proof.
  destruct acc as [[rules vecs] restricted]. unfold attr_step. split.
  - pose proof (join_split_on "=" aa) as Hj. pose proof (split_on_free "=" aa) as Hf.
    destruct (split_on "=" aa) as [|ak [|av [|]]] eqn:E; try discriminate.
    + destruct (eqb_ok aa "restricttransit") as [->|]; [|discriminate]. intros [= <-]. exists ARestrict. split; [constructor|reflexivity].
    + destruct (eqb_ok aa "restricttransit") as [->|]; [|discriminate]. intros [= <-]. exists ARestrict. split; [constructor|reflexivity].
    + cbn [join] in Hj. destruct (mem ak AUTH_ATTRIBUTES) eqn:Em.
      * intros [= <-]. exists (ARule ak av). split; [|reflexivity]. rewrite <- Hj. apply attr_rule; [apply auth_attrs_In, Em|].
        apply Hf. cbn; auto.
      * destruct (eqb_ok ak "vector") as [->|]; [|discriminate].
        destruct (split1 "@" av) as [[n wt]|] eqn:E1; [|discriminate]. destruct (py_int wt) as [w|] eqn:Ew; [|discriminate].
        intros [= <-]. apply split1_Some in E1 as [-> Hn].
        assert (Hav : shas "=" (n +++ String "@" wt) = false) by (apply Hf; cbn; auto).
        rewrite shas_app, shas_cons in Hav. apply orb_false_iff in Hav as [Hav1 Hav2]. apply orb_false_iff in Hav2 as [_ Hav2].
        exists (AVector n w). split; [|reflexivity]. rewrite <- Hj. apply attr_vector; assumption.
  - intros (a & Hm & ->). destruct Hm as [k v Hk Hv|net wt w H1 H2 H3 H4|].
    + assert (Hke : shas "=" k = false) by (cbn in Hk; repeat (destruct Hk as [<-|Hk]; [reflexivity|]); destruct Hk).
      change (k +++ "=" +++ v) with (k +++ String "=" v). rewrite split_on_app by exact Hke. rewrite split_on_none by exact Hv.
      rewrite (proj2 (auth_attrs_In k) Hk). reflexivity.
    + change ("vector=" +++ net +++ "@" +++ wt) with ("vector" +++ String "=" (net +++ String "@" wt)).
      rewrite split_on_app by reflexivity.
      rewrite split_on_none by (rewrite shas_app, shas_cons, H2, H3; reflexivity).
      change (mem "vector" AUTH_ATTRIBUTES) with false. cbv iota. rewrite eqb_refl, split1_app by exact H1. rewrite H4. reflexivity.
    + reflexivity.
Qed.

Lemma attr_loop_iff texts : forall acc acc', attr_loop acc texts = Ok acc' <->
  exists ats, Forall2 attr_means texts ats /\ acc' = fold_left apply_attr ats acc.
Proof.
  induction texts as [|t r IH]; intros acc acc'; cbn [attr_loop].
  - split.
    + intros [= <-]. exists []. split; [constructor|reflexivity].
    + intros (ats & H & ->). inversion H; subst. reflexivity.
  - split.
    + destruct (attr_step acc t) as [a1|] eqn:E; cbn [bind]; [|discriminate]. intros H.
      apply attr_step_iff in E as (a & Ha & ->). apply IH in H as (ats & Hats & ->).
      exists (a :: ats). split; [constructor; assumption|reflexivity].
    + intros (ats & H & ->). inversion H as [|? a ? ats' Ha Hats]; subst.
      assert (E : attr_step acc t = Ok (apply_attr acc a)) by (apply attr_step_iff; eauto).
      rewrite E. cbn [bind]. apply IH. exists ats'. split; [exact Hats|reflexivity].
Qed.

Lemma weight_of_snoc n ats a : weight_of n (ats ++ [a]) =
  match a with AVector m w => if eqb m n then Some w else weight_of n ats | _ => weight_of n ats end.
Proof.
  induction ats as [|b ats IH]; cbn [weight_of app].
  - destruct a as [| m w |]; reflexivity.
  - rewrite IH. destruct a as [| m w |]; try reflexivity. destruct (eqb m n); reflexivity.
Qed.
Lemma apply_attrs ats : let '(rules, vecs, restricted) := fold_left apply_attr ats ([], [], false) in
  rules = rules_of ats /\ (forall n, aget n vecs = weight_of n ats) /\ NoDup (akeys vecs) /\ (restricted = true <-> restricts ats).
Proof.
  induction ats as [|a ats IH] using rev_ind.
  - cbn. repeat split; try constructor; try discriminate. intros [].
  - rewrite fold_left_app. cbn [fold_left]. destruct (fold_left apply_attr ats ([], [], false)) as [[rules vecs] restricted].
    destruct IH as (-> & Hv & Hnd & Hr). unfold rules_of, restricts in *. rewrite flat_map_app.
    destruct a as [k v|m w|]; cbn [apply_attr flat_map].
    + split; [reflexivity|]. split; [intros n; rewrite weight_of_snoc; apply Hv|]. split; [exact Hnd|].
      rewrite in_app_iff, Hr. cbn [In]. intuition discriminate.
    + rewrite !app_nil_r. split; [reflexivity|]. split.
      * intros n. rewrite weight_of_snoc, aget_aset, Hv. destruct (eqb_ok n m) as [->|Hn]; [rewrite eqb_refl; reflexivity|].
        rewrite (eqb_neq m n) by congruence. reflexivity.
      * split; [apply NoDup_akeys_aset, Hnd|]. rewrite in_app_iff, Hr. cbn [In]. intuition discriminate.
    + rewrite !app_nil_r. split; [reflexivity|]. split; [intros n; rewrite weight_of_snoc; apply Hv|]. split; [exact Hnd|].
      rewrite in_app_iff. cbn [In]. tauto.
Qed.

Lemma attrs_iff spec acc : parse_attrs spec = Ok acc <-> exists ats, attrs_mean spec ats /\ acc = fold_left apply_attr ats ([], [], false).
Proof.
  unfold parse_attrs. split.
  - destruct (eqb_ok spec "-") as [->|Hn].
    + intros [= <-]. exists []. split; [constructor|reflexivity].
    + intros H. apply attr_loop_iff in H as (ats & Hats & ->). exists ats. split; [|reflexivity].
      rewrite <- (join_split_on "," spec). apply attrs_some; [apply split_on_nonnil|rewrite join_split_on; exact Hn| |exact Hats].
      intros t Ht. eapply split_on_free. exact Ht.
  - intros (ats & H & ->). destruct H as [|texts ats H1 H2 H3 H4]; [reflexivity|].
    rewrite eqb_neq by exact H2. rewrite split_on_join by assumption. apply attr_loop_iff. eauto.
Qed.

(** ** Lines *)
Lemma parse_line_eq line : parse_line line =
  match filter nonblank (split_on " " line) with
  | [port_type; port_name; remote_spec; label_spec; bandwidth; interface; authz_spec] =>
      if negb (eqb port_type "ethernet") then Err ETopology else
      do! remote <- parse_remote remote_spec;
      do! label <- parse_label_spec label_spec;
      do! bw <- match py_int bandwidth with Some b => Ok b | None => Err ENRMSpecification end;
      do! (rn, rp, ri, ro) <- match remote with
        | None => Ok (None, None, None, None)
        | Some (net, port, None) => Err ENRMSpecification
        | Some (net, port, Some (i, o)) =>
            let base := net +++ ":" +++ port in
            Ok (Some net, Some port, Some (base +++ i), Some (base +++ o))
        end;
      do! (rules, vecs, restricted) <- parse_attrs authz_spec;
      Ok (mkPort port_type port_name rn rp ri ro label bw interface rules vecs restricted)
  | _ => Err ENRMSpecification
  end.
Proof. reflexivity. Qed.

Lemma parse_line_iff line p : parse_line line = Ok p <->
  exists name remote label bw iface authz rn rp ri ro lb b rules vecs restricted,
    filter nonblank (split_on " " line) = ["ethernet"; name; remote; label; bw; iface; authz] /\
    remote_fields remote = Ok (rn, rp, ri, ro) /\ parse_label_spec label = Ok lb /\ py_int bw = Some b /\
    parse_attrs authz = Ok (rules, vecs, restricted) /\
    p = mkPort "ethernet" name rn rp ri ro lb b iface rules vecs restricted.
Proof.
  rewrite parse_line_eq. split.
  - destruct (filter nonblank (split_on " " line)) as [|ty [|name [|remote [|label [|bw [|iface [|authz [|]]]]]]]]; try discriminate.
    destruct (eqb_ok ty "ethernet") as [->|]; cbn [negb]; [|discriminate].
    destruct (parse_remote remote) as [rm|] eqn:Er; cbn [bind]; [|discriminate].
    destruct (parse_label_spec label) as [lb|] eqn:El; cbn [bind]; [|discriminate].
    destruct (py_int bw) as [b|] eqn:Eb; cbn [bind]; [|discriminate].
    match goal with |- context [bind ?m] => destruct m as [[[[rn rp] ri] ro]|] eqn:Ef end; cbn [bind]; [|discriminate].
    destruct (parse_attrs authz) as [[[rules vecs] restricted]|] eqn:Ea; cbn [bind]; [|discriminate].
    intros [= <-].
    exists name, remote, label, bw, iface, authz, rn, rp, ri, ro, lb, b, rules, vecs, restricted.
    split; [reflexivity|]. split; [unfold remote_fields; rewrite Er; exact Ef|]. repeat (split; [assumption|]). reflexivity.
  - intros (name & remote & label & bw & iface & authz & rn & rp & ri & ro & lb & b & rules & vecs & restricted & -> & Hr & Hl & Hb & Ha & ->).
    rewrite eqb_refl. cbn [negb]. unfold remote_fields in Hr. destruct (parse_remote remote) as [rm|]; cbn [bind] in *; [|discriminate].
    rewrite Hl. cbn [bind]. rewrite Hb. cbn [bind]. rewrite Hr. cbn [bind]. rewrite Ha. reflexivity.
Qed.

Lemma parse_line_sound l p : parse_line (strip l) = Ok p -> line_means l p.
Proof.
  intros H. apply parse_line_iff in H as (name & remote & label & bw & iface & authz & rn & rp & ri & ro & lb & b & rules & vecs & restricted & Hw & Hr & Hl & Hb & Ha & ->).
  apply spaced_iff in Hw. apply remote_iff in Hr as (rm & Hrm & Hf). apply labelspec_iff in Hl. apply attrs_iff in Ha as (ats & Hat & Hacc).
  pose proof (apply_attrs ats) as Hap. rewrite <- Hacc in Hap. destruct Hap as (Hru & Hv & Hnd & Hre).
  exists name, remote, label, bw, iface, authz, rm, ats. cbn [p_label p_bandwidth p_type p_name p_interface p_authz p_vectors p_restricted p_remote_network p_remote_port p_remote_in p_remote_out].
  repeat (split; [first [assumption | reflexivity]|]). destruct rm as [[[[net port] i] o]|]; injection Hf as -> -> -> ->; auto.
Qed.

Lemma parse_line_complete l p : line_means l p -> exists p', parse_line (strip l) = Ok p'.
Proof.
  intros (name & remote & label & bw & iface & authz & rm & ats & Hw & Hr & Hl & Hb & Ha & _).
  destruct (fields_of rm) as [[[rn rp] ri] ro] eqn:Ef. destruct (fold_left apply_attr ats ([], [], false)) as [[rules vecs] restricted] eqn:Eacc.
  exists (mkPort "ethernet" name rn rp ri ro (p_label p) (p_bandwidth p) iface rules vecs restricted). apply parse_line_iff.
  exists name, remote, label, bw, iface, authz, rn, rp, ri, ro, (p_label p), (p_bandwidth p), rules, vecs, restricted.
  split; [apply spaced_iff, Hw|]. split; [apply remote_iff; eauto|]. split; [apply labelspec_iff, Hl|]. split; [exact Hb|].
  split; [apply attrs_iff; eauto|]. reflexivity.
Qed.

(** ** Files *)
Lemma skip_content l : skip_line (strip l) = false <-> content l.
Proof.
  unfold skip_line, content. rewrite orb_false_iff, eqb_false. reflexivity.
Qed.

Lemma parse_sound ls : forall ps, parse_port_spec ls = Ok ps -> file_means ls ps.
Proof.
  induction ls as [|l ls IH]; intros ps; cbn [parse_port_spec].
  - intros [= <-]. constructor.
  - destruct (skip_line (strip l)) eqn:Es.
    + intros H. apply file_skip; [|auto]. intros Hc. apply skip_content in Hc. congruence.
    + destruct (parse_line (strip l)) as [p|] eqn:Ep; cbn [bind]; [|discriminate].
      destruct (parse_port_spec ls) as [ps'|] eqn:E; cbn [bind]; [|discriminate]. intros [= <-].
      apply file_port; [apply skip_content, Es|apply parse_line_sound, Ep|auto].
Qed.
Lemma parse_complete ls : (forall l, In l ls -> content l -> exists p, line_means l p) -> exists ps, parse_port_spec ls = Ok ps.
Proof.
  induction ls as [|l ls IH]; intros H; cbn [parse_port_spec]; [eauto|].
  destruct IH as (ps & Hps); [intros l' Hl'; apply H; right; exact Hl'|].
  destruct (skip_line (strip l)) eqn:Es; [eauto|].
  destruct (H l (or_introl eq_refl)) as (p & Hp); [apply skip_content, Es|].
  apply parse_line_complete in Hp as (p' & ->). cbn [bind]. rewrite Hps. cbn [bind]. eauto.
Qed.
Lemma file_means_all ls ps : file_means ls ps -> forall l, In l ls -> content l -> exists p, line_means l p.
Proof.
  induction 1 as [|l ls ps Hn Hf IH|l ls p ps Hc Hm Hf IH]; intros l' Hin Hc'; [destruct Hin| |].
  - destruct Hin as [<-|Hin]; [tauto|eauto].
  - destruct Hin as [<-|Hin]; eauto.
Qed.

Theorem c24_accepts ls : (exists ps, parse_port_spec ls = Ok ps) <-> (forall l, In l ls -> content l -> exists p, line_means l p).
Proof.
  split; [|apply parse_complete]. intros (ps & H). apply parse_sound in H. eapply file_means_all. exact H.
Qed.

(** a line means at most one port, up to the order of its vectors *)
Definition same_port (p q : nrm_port) : Prop :=
  p_type p = p_type q /\ p_name p = p_name q /\ p_remote_network p = p_remote_network q /\ p_remote_port p = p_remote_port q /\
  p_remote_in p = p_remote_in q /\ p_remote_out p = p_remote_out q /\ p_label p = p_label q /\ p_bandwidth p = p_bandwidth q /\
  p_interface p = p_interface q /\ p_authz p = p_authz q /\ (forall n, aget n (p_vectors p) = aget n (p_vectors q)) /\
  p_restricted p = p_restricted q.

Lemma remote_means_fun s a b : remote_means s a -> remote_means s b -> fields_of a = fields_of b.
Proof.
  intros H1 H2. assert (E1 : remote_fields s = Ok (fields_of a)) by (apply remote_iff; eauto).
  assert (E2 : remote_fields s = Ok (fields_of b)) by (apply remote_iff; eauto). congruence.
Qed.
Lemma attrs_mean_fun s a b : attrs_mean s a -> attrs_mean s b -> a = b.
Proof.
  assert (Hone : forall t x y, attr_means t x -> attr_means t y -> x = y).
  { intros t x y H1 H2.
    assert (E1 : attr_step ([], [], false) t = Ok (apply_attr ([], [], false) x)) by (apply attr_step_iff; eauto).
    assert (E2 : attr_step ([], [], false) t = Ok (apply_attr ([], [], false) y)) by (apply attr_step_iff; eauto).
    rewrite E1 in E2. injection E2 as E. destruct x, y; cbn in E; congruence. }
  intros H1 H2.
  assert (Hne : forall texts, texts <> [] -> (forall t, In t texts -> shas "," t = false) -> split_on "," (join "," texts) = texts)
    by (intros; apply split_on_join; assumption).
  destruct H1 as [|t1 a N1 D1 F1 A1].
  - inversion H2 as [E|t2 b' N2 D2 F2 A2 E]; subst; [reflexivity|]. congruence.
  - inversion H2 as [E|t2 b' N2 D2 F2 A2 E]; subst; [congruence|].
    assert (t2 = t1) by (rewrite <- (Hne t1 N1 F1), <- (Hne t2 N2 F2), E; reflexivity). subst t2.
    clear -A1 A2 Hone. revert b A2. induction A1 as [|x y l l' Hxy Hl IH]; intros b A2; inversion A2; subst; [reflexivity|].
    f_equal; [eapply Hone; eauto|apply IH; assumption].
Qed.

Theorem c24_functional l p q : line_means l p -> line_means l q -> same_port p q.
Proof.
  intros (n1 & r1 & l1 & b1 & i1 & a1 & rm1 & ats1 & W1 & R1 & L1 & B1 & A1 & T1 & N1 & I1 & U1 & V1 & _ & S1 & F1)
         (n2 & r2 & l2 & b2 & i2 & a2 & rm2 & ats2 & W2 & R2 & L2 & B2 & A2 & T2 & N2 & I2 & U2 & V2 & _ & S2 & F2).
  apply spaced_iff in W1. apply spaced_iff in W2. rewrite W1 in W2. injection W2 as <- <- <- <- <- <-.
  pose proof (attrs_mean_fun _ _ _ A1 A2) as <-. pose proof (remote_means_fun _ _ _ R1 R2) as Hf.
  apply labelspec_iff in L1. apply labelspec_iff in L2.
  assert (Hl : p_label p = p_label q) by congruence. assert (Hb : p_bandwidth p = p_bandwidth q) by congruence.
  assert (Hr : p_restricted p = p_restricted q).
  { destruct (p_restricted p), (p_restricted q); try reflexivity; [apply proj1 in S1; symmetry; apply S2, S1; reflexivity|apply S1, S2; reflexivity]. }
  assert (Hv : forall n, aget n (p_vectors p) = aget n (p_vectors q)) by (intros n; rewrite V1, V2; reflexivity).
  unfold same_port. destruct rm1 as [[[[? ?] ?] ?]|], rm2 as [[[[? ?] ?] ?]|]; try discriminate Hf; cbn [fields_of] in Hf;
    try injection Hf as -> -> -> ->; destruct F1 as (? & ? & ? & ?), F2 as (? & ? & ? & ?);
    repeat (split; [first [exact Hv|congruence]|]); exact Hr.
Qed.

Theorem c24_rejects ls l : In l ls -> content l ->
  ((forall ws, spaced (strip l) ws -> List.length ws <> 7%nat) \/
   (exists ty rest, spaced (strip l) (ty :: rest) /\ ty <> "ethernet") \/
   (exists ty n r t v rest, spaced (strip l) (ty :: n :: r :: (t +++ ":" +++ v) :: rest) /\ shas ":" t = false /\ ~ In t ["vlan"; "mpls"]) \/
   (exists ty n r lb b i texts t, spaced (strip l) [ty; n; r; lb; b; i; join "," texts] /\ join "," texts <> "-" /\
      (forall x, In x texts -> shas "," x = false) /\ In t texts /\ (forall a, ~ attr_means t a))) ->
  exists e, parse_port_spec ls = Err e.
Proof.
  intros Hin Hc Hbad. destruct (parse_port_spec ls) as [ps|e] eqn:E; [|eauto]. exfalso.
  assert (Hall : exists ps, parse_port_spec ls = Ok ps) by eauto. rewrite c24_accepts in Hall.
  destruct (Hall l Hin Hc) as (p & n1 & r1 & l1 & b1 & i1 & a1 & rm1 & ats1 & W1 & R1 & L1 & B1 & A1 & _).
  assert (Hfun : forall ws, spaced (strip l) ws -> ws = ["ethernet"; n1; r1; l1; b1; i1; a1]).
  { intros ws Hw. apply spaced_iff in Hw. apply spaced_iff in W1. congruence. }
  destruct Hbad as [H|[(ty & rest & H & Hty)|[(ty & n & r & t & v & rest & H & Ht & Hni)|(ty & n & r & lb & b & i & texts & t & H & Hd & Hfr & Ht & Hm)]]].
  - exact (H _ W1 eq_refl).
  - apply Hfun in H. injection H as H _. congruence.
  - apply Hfun in H. injection H as _ _ _ H _. subst l1. inversion L1 as [E1|t' v' lb Ht' Hl' E1 E2].
    + symmetry in E1. destruct t as [|c [|c' t]]; discriminate E1.
    + assert (Es : split1 ":" (t' +++ String ":" v') = split1 ":" (t +++ String ":" v)) by (f_equal; exact E1).
      assert (Ht2 : shas ":" t' = false) by (destruct Ht' as [->| ->]; reflexivity).
      rewrite !split1_app in Es by assumption. injection Es as -> ->. apply Hni. cbn. destruct Ht' as [->| ->]; auto.
  - apply Hfun in H. injection H as _ _ _ _ _ _ H. subst a1. inversion A1 as [E1|t2 a' N2 D2 F2 A2 E1 E2]; [congruence|].
    assert (Hte : texts <> []) by (intros ->; destruct Ht).
    assert (t2 = texts) by (rewrite <- (split_on_join "," texts Hte Hfr), <- (split_on_join "," t2 N2 F2); f_equal; exact E1). subst t2.
    clear -A2 Ht Hm. induction A2 as [|x y l l' Hxy Hl IH]; [destruct Ht|]. destruct Ht as [->|Ht]; [exact (Hm y Hxy)|auto].
Qed.

(** an attribute that is not understood *)
Lemma unknown_attr k v : shas "=" k = false -> ~ In k ["nsa"; "user"; "group"; "token"; "hostdn"; "vector"] -> forall a, ~ attr_means (k +++ "=" +++ v) a.
Proof.
  intros Hk Hn a Ha.
  assert (Hs : forall k' v', shas "=" k' = false -> k +++ String "=" v = k' +++ String "=" v' -> k = k').
  { intros k' v' Hk' E. assert (Es : split1 "=" (k +++ String "=" v) = split1 "=" (k' +++ String "=" v')) by (f_equal; exact E).
    rewrite !split1_app in Es by assumption. congruence. }
  inversion Ha as [k' v' Hin Hv E|net wt w H1 H2 H3 H4 E|E].
  - assert (Hke : shas "=" k' = false) by (cbn in Hin; repeat (destruct Hin as [<-|Hin]; [reflexivity|]); destruct Hin).
    assert (k = k') by (eapply Hs; [exact Hke|symmetry; exact E]). subst k'. apply Hn. cbn in *. tauto.
  - assert (k = "vector") by (eapply (Hs "vector" (net +++ "@" +++ wt)); [reflexivity|symmetry; exact E]). subst k. apply Hn. cbn. tauto.
  - assert (Hx : shas "=" "restricttransit" = true) by (rewrite E, !shas_app; cbn; apply orb_true_r). discriminate Hx.
Qed.
