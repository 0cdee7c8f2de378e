(** C83: which requests the gateway of the image sends to ckube. *)
From Coq Require Import Ascii String NArith ZArith Lia.
From stdpp Require Import base gmap strings list.
From Verif Require Import ModelStr ProofsStr ModelLabels ModelJson ModelStore ModelProxy ModelServer ModelServe ModelGateway SpecLabels SpecPage SpecStore SpecServer SpecServe ProofsLabels ProofsQueryStore ProofsListing ProofsProxy ProofsServer PropsStore PropsProxy PropsServer PropsServe PropsSelector.

(** ** Specification *)
(** Letters, digits, full stop, hyphen, underscore. *)
Definition gate_char (c : ascii) : Prop :=
  (48 <= N_of_ascii c <= 57)%N \/ (65 <= N_of_ascii c <= 90)%N \/ (97 <= N_of_ascii c <= 122)%N \/ c ∈ ["."; "-"; "_"]%char.
Definition gate_word (s : gostr) : Prop := s <> [] /\ Forall gate_char s.
(** Group, version, type and namespace are of these; a name is any segment. *)
Definition gate_addr (g : gvr) (ns name : option gostr) : Prop :=
  (g.1.1 = [] \/ gate_word g.1.1) /\ gate_word g.1.2 /\ gate_word g.2 /\
  (forall n, ns = Some n -> gate_word n) /\ (forall n, name = Some n -> n <> [] /\ "/"%char ∉ n).
(** An argument of the address asks for a watch, as it is written: watch= in letters of either case, and 1 or true
    somewhere in the value. *)
Definition watch_arg (a : gostr) : Prop := exists w v, a = w ++ str "=" ++ v /\ to_lower w = str "watch".
Definition asks_watch (a : gostr) : Prop := exists w v, a = w ++ str "=" ++ v /\ to_lower w = str "watch" /\
  (occurs (str "1") v \/ occurs (str "true") (to_lower v)).
(** The first argument called watch asks for a watch. *)
Definition watching (raw : gostr) : Prop := exists before a after,
  raw = join (str "&") (before ++ a :: after) /\ Forall (fun b => "&"%char ∉ b) (before ++ a :: after) /\
  (forall b, b ∈ before -> ~ watch_arg b) /\ asks_watch a.
(** A page of ckube itself, or an address that begins like one. *)
Definition own_page (p : gostr) : Prop := exists t, p = str "/custom" ++ t \/ p = str "/metrics" ++ t \/ p = str "/healthy" ++ t.

(** ** The expression *)
Lemma in_cat_iff a b s : re_in (RCat a b) s <-> exists u v, s = u ++ v /\ re_in a u /\ re_in b v.
Proof. split; [intros H; inversion H; subst; by eauto|intros (u & v & -> & H1 & H2); by constructor]. Qed.
Lemma in_lit_iff l s : re_in (RLit l) s <-> s = l.
Proof. split; [intros H; by inversion H|intros ->; constructor]. Qed.
Lemma in_alt_iff a b s : re_in (RAlt a b) s <-> re_in a s \/ re_in b s.
Proof. split; [intros H; inversion H; subst; auto|intros [H|H]; [by apply in_alt_l|by apply in_alt_r]]. Qed.
Lemma in_opt_iff a s : re_in (ROpt a) s <-> s = [] \/ re_in a s.
Proof. split; [intros H; inversion H; subst; auto|intros [->|H]; [constructor|by apply in_opt_some]]. Qed.
Lemma in_plus_iff p s : re_in (RPlus (RChr p)) s <-> s <> [] /\ Forall (fun c => p c = true) s.
Proof.
  split.
  - intros H. remember (RPlus (RChr p)) as r eqn:Er. induction H as [| | | | |a s H IH|a s t H IH Ht IHt| |]; try discriminate Er; injection Er as ->; inversion H; subst.
    + split; [done|]. by constructor.
    + destruct (IHt eq_refl) as [_ Hf]. split; [done|]. by constructor.
  - intros [Hne Hf]. induction Hf as [|c s Hc Hf IH]; [done|]. destruct s as [|d s].
    + apply in_plus_one. by constructor.
    + apply (in_plus_more (RChr p) [c] (d :: s)); [by constructor|by apply IH].
Qed.
Lemma wchar_iff c : wchar c = true <-> gate_char c.
Proof.
  unfold wchar, is_alnum, is_digit, is_lower, is_upper, between, gate_char, code. rewrite !orb_true_iff, !andb_true_iff, !N.leb_le, !elem_of_cons, elem_of_nil.
  assert (forall d, ch_eqb c d = true <-> c = d) as Hc by (intros d; unfold ch_eqb; apply Ascii.eqb_eq).
  rewrite !Hc. tauto.
Qed.
Lemma word_iff s : re_in word_re s <-> gate_word s.
Proof. unfold word_re. rewrite in_plus_iff. unfold gate_word. rewrite !Forall_forall. split; intros [H1 H2]; (split; [done|]); intros c Hc; apply wchar_iff; by apply H2. Qed.
Lemma rest_iff s : re_in rest_re s <-> s <> [] /\ "/"%char ∉ s.
Proof.
  unfold rest_re. rewrite in_plus_iff, Forall_forall. split; intros [H1 H2]; (split; [done|]).
  - intros Hin. specialize (H2 _ Hin). by vm_compute in H2.
  - intros c Hc. apply negb_true_iff. unfold ch_eqb. apply Ascii.eqb_neq. by intros ->.
Qed.
Lemma api_re_iff p : re_in api_re p <-> exists g ns name, gate_addr g ns name /\ p = api_path g ns name.
Proof.
  unfold api_re. split.
  - intros (u1 & v1 & -> & H1 & (u2 & v2 & -> & ->%in_lit_iff & (v & v3 & -> & Hv%word_iff & (u4 & v4 & -> & ->%in_lit_iff & (u5 & v5 & -> & H5 & (rt & u6 & -> & Hrt%word_iff & H6)%in_cat_iff)%in_cat_iff)%in_cat_iff)%in_cat_iff)%in_cat_iff)%in_cat_iff.
    assert (exists ns, (forall n, ns = Some n -> gate_word n) /\ u5 = match ns with Some n => str "namespaces/" ++ n ++ str "/" | None => [] end) as (ns & Hns & ->).
    { apply in_opt_iff in H5 as [->|(x & y & -> & ->%in_lit_iff & (n & z & -> & Hn%word_iff & ->%in_lit_iff)%in_cat_iff)%in_cat_iff]; [by exists None|].
      exists (Some n). split; [by intros ? [= <-]|done]. }
    assert (exists name, (forall n, name = Some n -> n <> [] /\ "/"%char ∉ n) /\ u6 = match name with Some n => str "/" ++ n | None => [] end) as (name & Hname & ->).
    { apply in_opt_iff in H6 as [->|(x & n & -> & ->%in_lit_iff & Hn%rest_iff)%in_cat_iff]; [by exists None|].
      exists (Some n). split; [by intros ? [= <-]|done]. }
    assert (exists gr, (gr = [] \/ gate_word gr) /\ u1 = match gr with [] => str "/api" | _ => str "/apis/" ++ gr end) as (gr & Hgr & ->).
    { apply in_alt_iff in H1 as [->%in_lit_iff|(x & gr & -> & ->%in_lit_iff & Hgr%word_iff)%in_cat_iff]; [exists []; by split; [left|]|].
      exists gr. split; [by right|]. destruct gr; [by destruct Hgr|done]. }
    exists (gr, v, rt), ns, name. split; [exact (conj Hgr (conj Hv (conj Hrt (conj Hns Hname))))|]. unfold api_path, seg_path. cbn [fst snd].
    destruct gr as [|c gr], ns as [ns|], name as [name|]; cbn [flat_map app str String.list_ascii_of_string]; rewrite ?app_nil_r; repeat (rewrite <- ?app_assoc; cbn [app]); try reflexivity.
  - intros (((gr & v) & rt) & ns & name & (Hgr & Hv & Hrt & Hns & Hname) & ->). cbn [fst snd] in *.
    replace (api_path (gr, v, rt) ns name) with
      ((match gr with [] => str "/api" | _ => str "/apis/" ++ gr end) ++ str "/" ++ v ++ str "/" ++
       (match ns with Some n => str "namespaces/" ++ n ++ str "/" | None => [] end) ++ rt ++ (match name with Some n => str "/" ++ n | None => [] end)).
    2:{ unfold api_path, seg_path. cbn [fst snd]. destruct gr as [|c gr], ns as [ns|], name as [name|]; cbn [flat_map app str String.list_ascii_of_string]; rewrite ?app_nil_r; repeat (rewrite <- ?app_assoc; cbn [app]); reflexivity. }
    apply in_cat; [|apply in_cat; [apply in_lit|apply in_cat; [by apply word_iff|apply in_cat; [apply in_lit|apply in_cat; [|apply in_cat; [by apply word_iff|]]]]]].
    + destruct gr as [|c gr]; [apply in_alt_l, in_lit|]. apply in_alt_r, in_cat; [apply in_lit|]. apply word_iff. by destruct Hgr.
    + destruct ns as [n|]; [|constructor]. apply in_opt_some, in_cat; [apply in_lit|]. apply in_cat; [apply word_iff; by apply Hns|apply in_lit].
    + destruct name as [n|]; [|constructor]. apply in_opt_some, in_cat; [apply in_lit|]. apply rest_iff. by apply Hname.
Qed.
(** The location of API requests has exactly the paths of types, namespaces and names, and those with a line end
    behind. *)
Theorem C83_paths (p : gostr) : api_location p <->
  exists g ns name, gate_addr g ns name /\ (p = api_path g ns name \/ p = api_path g ns name ++ [ascii_of_N 10]).
Proof.
  unfold api_location. rewrite api_re_iff. split.
  - intros [(g & ns & name & H & ->)|(p' & -> & (g & ns & name & H & ->)%api_re_iff)]; exists g, ns, name; auto.
  - intros (g & ns & name & H & [->| ->]); [left; by exists g, ns, name|right]. eexists. split; [reflexivity|]. apply api_re_iff. by exists g, ns, name.
Qed.

(** ** The choice *)
Lemma act_get m raw : act m raw = str "GN" <-> m = str "GET" /\ no_watch raw = true.
Proof.
  unfold act. destruct (str_eqb m (str "GET")) eqn:Em, (no_watch raw); cbn; split; try done.
  - intros _. split; [by apply str_eqb_eq|done].
  - intros [_ H]. done.
  - intros [-> _]. by rewrite str_eqb_refl in Em.
  - intros [_ H]. done.
Qed.
Lemma backend_iff m raw : backend m raw = ToCkube <-> m = str "GET" /\ no_watch raw = true.
Proof.
  rewrite <- act_get. unfold backend. destruct (str_eqb (act m raw) (str "GN")) eqn:Ea.
  - apply str_eqb_eq in Ea. done.
  - split; [done|]. intros H. rewrite H, str_eqb_refl in Ea. done.
Qed.
Lemma lower_app a b : to_lower (a ++ b) = to_lower a ++ to_lower b.
Proof. apply map_app. Qed.
Lemma lower_eq (c : ascii) : lower_ascii c = "="%char -> c = "="%char.
Proof. destruct c as [[] [] [] [] [] [] [] []]; vm_compute; done || discriminate. Qed.
Lemma watch_prefix a : has_prefix (str "watch=") (to_lower a) = true <-> watch_arg a.
Proof.
  rewrite ProofsProxy.has_prefix_app. unfold watch_arg. split.
  - intros (t & Ht). exists (take 5 a), (drop 6 a).
    do 6 (destruct a as [|? a]; [discriminate Ht|]). cbn in Ht. injection Ht as H1 H2 H3 H4 H5 H6 _. split.
    + cbn. by rewrite (lower_eq _ H6).
    + cbn. by rewrite H1, H2, H3, H4, H5.
  - intros (w & v & -> & Hw). exists (to_lower v). rewrite !lower_app, Hw. reflexivity.
Qed.
Lemma arg_drop w v : to_lower w = str "watch" -> drop (S (length (str "watch"))) (w ++ str "=" ++ v) = v.
Proof. intros Hw. assert (length w = 5) as Hl by (rewrite <- (map_length lower_ascii w); unfold to_lower in Hw; by rewrite Hw). do 6 (destruct w as [|? w]; try discriminate Hl). reflexivity. Qed.
Lemma first_arg_is before a after : (forall b, b ∈ before -> ~ watch_arg b) -> watch_arg a ->
  first_arg (str "watch") (before ++ a :: after) = drop (S (length (str "watch"))) a.
Proof.
  intros Hb Ha. induction before as [|b before IH]; cbn [first_arg app]; change (str "watch" ++ str "=") with (str "watch=").
  - apply watch_prefix in Ha. by rewrite Ha.
  - destruct (has_prefix (str "watch=") (to_lower b)) eqn:E; [apply watch_prefix in E; exfalso; apply (Hb b); [by left|done]|].
    apply IH. intros b' Hb'. apply Hb. by right.
Qed.
Lemma lower_one v : to_lower (str "1") = str "1" /\ (occurs (str "1") v -> occurs (str "1") (to_lower v)).
Proof. split; [done|]. intros (x & y & ->). exists (to_lower x), (to_lower y). by rewrite !lower_app. Qed.
Lemma watching_not raw : watching raw -> no_watch raw = false.
Proof.
  intros (before & a & after & -> & Hamp & Hb & (w & v & -> & Hw & Hv)). unfold no_watch, arg_watch.
  rewrite (split_on_join "&"%char); [|by destruct before|done].
  rewrite first_arg_is; [|done|by exists w, v]. rewrite arg_drop by done. apply negb_false_iff, orb_true_iff.
  destruct Hv as [Hv|Hv]; [left|right]; apply contains_true; [by apply lower_one|done].
Qed.
Lemma lower_is_one (c : ascii) : lower_ascii c = "1"%char -> c = "1"%char.
Proof. destruct c as [[] [] [] [] [] [] [] []]; vm_compute; done || discriminate. Qed.
Lemma one_back v : occurs (str "1") (to_lower v) -> occurs (str "1") v.
Proof.
  intros (x & y & H). unfold to_lower in H. apply map_eq_app in H as (x' & z & -> & <- & H). destruct z as [|c z]; [discriminate H|]. cbn in H. injection H as Hc _.
  exists x', z. by rewrite (lower_is_one _ Hc).
Qed.
Lemma first_arg_find args : first_arg (str "watch") args = [] \/
  exists before a after, args = before ++ a :: after /\ (forall b, b ∈ before -> ~ watch_arg b) /\ watch_arg a.
Proof.
  induction args as [|a args IH]; [by left|]. cbn [first_arg]. change (str "watch" ++ str "=") with (str "watch=").
  destruct (has_prefix (str "watch=") (to_lower a)) eqn:E.
  - right. exists [], a, args. split; [done|]. split; [intros b Hb; by apply elem_of_nil in Hb|by apply watch_prefix].
  - destruct IH as [IH|(before & x & after & -> & Hb & Hx)]; [by left|]. right. exists (a :: before), x, after. split; [done|]. split; [|done].
    intros b [->|Hin]%elem_of_cons; [|by apply Hb]. intros Hw%watch_prefix. congruence.
Qed.
Lemma watching_iff raw : no_watch raw = false <-> watching raw.
Proof.
  split; [|apply watching_not]. unfold no_watch, arg_watch. intros H%negb_false_iff%orb_true_iff.
  destruct (first_arg_find (split_on "&"%char raw)) as [E|(before & a & after & E & Hb & w & v & -> & Hw)].
  - rewrite E in H. by destruct H as [H|H]; vm_compute in H.
  - rewrite E, first_arg_is, arg_drop in H by (done || by exists w, v). exists before, (w ++ str "=" ++ v), after. split; [rewrite <- E; exact (eq_sym (ProofsStr.join_split "&"%char raw))|].
    split; [rewrite <- E; apply split_on_nosep_all|]. split; [done|]. exists w, v. split; [done|]. split; [done|].
    destruct H as [H|H]; apply contains_true in H; [left; by apply one_back|by right].
Qed.
Lemma own_iff p : own_page p <-> exists x, x ∈ own_pages /\ has_prefix x p = true.
Proof.
  unfold own_page, own_pages. split.
  - intros (t & [->|[-> | ->]]); eexists; (split; [|apply ProofsProxy.has_prefix_app; eexists; reflexivity]); rewrite !elem_of_cons; auto.
  - intros (x & Hx & (t & ->)%ProofsProxy.has_prefix_app). exists t. rewrite !elem_of_cons, elem_of_nil in Hx. destruct Hx as [->|[->|[->|[]]]]; auto.
Qed.
Lemma api_not_own p : api_location p -> ~ own_page p.
Proof.
  intros Hp (t & Ht). unfold api_location in Hp.
  assert (forall q, re_in api_re q -> exists u, q = str "/api" ++ u) as Hq.
  { intros q (u & v & -> & H & _)%in_cat_iff. apply in_alt_iff in H as [->%in_lit_iff|(x & y & -> & ->%in_lit_iff & _)%in_cat_iff]; [by eexists|].
    exists (str "s/" ++ y ++ v). rewrite <- app_assoc. reflexivity. }
  assert (exists u, p = str "/api" ++ u) as [u ->].
  { destruct Hp as [Hp|(p' & -> & Hp)]; [by apply Hq|]. destruct (Hq _ Hp) as [u ->]. exists (u ++ [ascii_of_N 10]). by rewrite app_assoc. }
  destruct Ht as [Ht|[Ht|Ht]]; discriminate Ht.
Qed.

(** ** C83 *)
(** A GET of a type, of a namespace of it or of one object, without a watch, is sent to ckube with the credentials of
    the gateway, and ckube's proxy gets exactly that type, namespace and name; the client's own header does not
    matter. *)
Theorem C83_reads (token tok : gostr) (hr hr' : http_req) (g : gvr) (ns name : option gostr) (d : dest) :
  gate_addr g ns name -> api_addr g ns name -> rq_path (h_req hr) = api_path g ns name -> rq_method (h_req hr) = str "GET" -> ~ watching (rq_raw (h_req hr)) ->
  tok = [] \/ occurs tok (str "Bearer " ++ token) ->
  gateway token hr d hr' <-> d = ToCkube /\ hr' = bearer token hr /\
    exists vars, dispatch route_handles tok hr' = DRun HProxy (with_vars (h_req hr) vars) 200 /\
      req_gvr (with_vars (h_req hr) vars) = g /\ vars !! str "namespace" = ns /\ vars !! str "resource" = name.
Proof.
  intros Hg Ha Hp Hm Hw Ht.
  assert (api_location (rq_path (h_req hr))) as Hl by (apply C83_paths; exists g, ns, name; auto).
  assert (backend (rq_method (h_req hr)) (rq_raw (h_req hr)) = ToCkube) as Hb.
  { apply backend_iff. split; [done|]. destruct (no_watch _) eqn:E; [done|]. by apply watching_iff in E. }
  split.
  - intros Hgw. destruct Hgw as [H|x H|H]; [|done|done]. rewrite Hb. split; [done|]. split; [done|].
    apply (C59_api_paths tok (bearer token hr) g ns name); cbn [bearer h_req h_auth]; try done.
    + rewrite Hm. unfold any_methods. by left.
  - intros (-> & -> & _). rewrite <- Hb. by constructor.
Qed.
(** Nothing else reaches ckube: what does is such a GET without a watch, or a page of ckube itself (or an address that
    begins like one), which is sent as it came. *)
Theorem C83_only_reads (token : gostr) (hr hr' : http_req) : gateway token hr ToCkube hr' ->
  (rq_method (h_req hr) = str "GET" /\ ~ watching (rq_raw (h_req hr)) /\ hr' = bearer token hr /\
   exists g ns name, gate_addr g ns name /\ (rq_path (h_req hr) = api_path g ns name \/ rq_path (h_req hr) = api_path g ns name ++ [ascii_of_N 10])) \/
  (own_page (rq_path (h_req hr)) /\ hr' = hr).
Proof.
  intros H. remember ToCkube as d eqn:Ed. destruct H as [H|x H Hx Hpre|H Hx]; [|right|discriminate Ed].
  - left. apply backend_iff in Ed as [Hm Hn]. split; [done|]. split; [intros Hw%watching_iff; congruence|]. split; [done|]. by apply C83_paths.
  - split; [|done]. apply own_iff. by exists x.
Qed.
(** Writes and watches go to the API server, with the credentials of the gateway, unless the path begins like a page
    of ckube. *)
Theorem C83_others (token : gostr) (hr hr' : http_req) (d : dest) :
  rq_method (h_req hr) <> str "GET" \/ watching (rq_raw (h_req hr)) -> ~ own_page (rq_path (h_req hr)) ->
  gateway token hr d hr' -> d = ToKube /\ hr' = bearer token hr.
Proof.
  intros Hor Hno Hg. destruct Hg as [H|x H Hx Hpre|H Hx]; [|exfalso; apply Hno, own_iff; by exists x|done].
  split; [|done]. destruct (backend _ _) eqn:E; [done|]. apply backend_iff in E as [E1 E2]. destruct Hor as [?|Hw%watching_iff]; [done|congruence].
Qed.
(** Each request is sent to one place in one way. *)
Theorem C83_one_place (token : gostr) (hr : http_req) (d d' : dest) (x x' : http_req) :
  gateway token hr d x -> gateway token hr d' x' -> d = d' /\ x = x'.
Proof.
  intros H1 H2. destruct H1 as [A|y A Y P|A N], H2 as [B|z B Z Q|B M]; try done.
  - by rewrite (M y Y) in P.
  - by rewrite (N z Z) in Q.
Qed.
(** Each request is sent somewhere. *)
Definition decided (r : re) : Prop := forall s, re_in r s \/ ~ re_in r s.
Lemma dec_lit l : decided (RLit l).
Proof. intros s. destruct (decide (s = l)) as [->|H]; [left; constructor|right]. by intros ?%in_lit_iff. Qed.
Lemma dec_plus p : decided (RPlus (RChr p)).
Proof.
  intros s. destruct (decide (s = [] \/ ~ Forall (fun c => p c = true) s)) as [H|H]; [right|left]; rewrite in_plus_iff.
  - intros [H1 H2]. by destruct H.
  - split; [intros ->; apply H; by left|]. destruct (decide (Forall (fun c => p c = true) s)) as [HF|HF]; [done|]. exfalso. apply H. by right.
Qed.
Lemma dec_alt a b : decided a -> decided b -> decided (RAlt a b).
Proof. intros Ha Hb s. rewrite in_alt_iff. destruct (Ha s), (Hb s); tauto. Qed.
Lemma dec_opt a : decided a -> decided (ROpt a).
Proof. intros Ha s. rewrite in_opt_iff. destruct (Ha s), (decide (s = [])); tauto. Qed.
Lemma dec_cat a b : decided a -> decided b -> decided (RCat a b).
Proof.
  intros Ha Hb s. assert (forall t u, (exists v w, t = v ++ w /\ re_in a (u ++ v) /\ re_in b w) \/ ~ (exists v w, t = v ++ w /\ re_in a (u ++ v) /\ re_in b w)) as H.
  { induction t as [|c t IH]; intros u.
    - destruct (Ha u) as [H1|H1], (Hb []) as [H2|H2]; [left; exists [], []; split; [done|]; by rewrite app_nil_r|right..].
      all: intros (v & w & Hvw & H3 & H4); symmetry in Hvw; apply app_eq_nil in Hvw as [-> ->]; rewrite app_nil_r in H3; done.
    - destruct (Ha u) as [H1|H1], (Hb (c :: t)) as [H2|H2]; try (left; exists [], (c :: t); split; [done|]; by rewrite app_nil_r).
      all: destruct (IH (u ++ [c])) as [(v & w & -> & H3 & H4)|H3]; [left; exists (c :: v), w; split; [done|]; split; [by rewrite <- app_assoc in H3|done]|].
      all: right; intros (v & w & Hvw & H4 & H5); destruct v as [|d v]; [rewrite app_nil_r in H4; cbn in Hvw; subst w; done|].
      all: injection Hvw as <- ->; apply H3; exists v, w; (split; [done|]); by rewrite <- app_assoc. }
  rewrite in_cat_iff. exact (H s []).
Qed.
Lemma dec_api : decided api_re.
Proof. unfold api_re, word_re, rest_re. repeat first [apply dec_lit|apply dec_plus|apply dec_cat|apply dec_alt|apply dec_opt]. Qed.
Lemma dec_location p : api_location p \/ ~ api_location p.
Proof.
  unfold api_location. destruct (dec_api p) as [H|H]; [by left; left|].
  destruct p as [|c p _] using rev_ind; [right; intros [?|(p' & Hp & _)]; [done|by destruct p']|].
  destruct (dec_api p) as [H'|H']; [|right; intros [?|(p' & [-> ->]%app_inj_tail & Hp)]; done].
  destruct (decide (c = ascii_of_N 10)) as [->|Hc]; [left; right; by exists p|right; intros [?|(p' & [-> ->]%app_inj_tail & Hp)]; done].
Qed.
Theorem C83_some_place (token : gostr) (hr : http_req) : exists d x, gateway token hr d x.
Proof.
  destruct (dec_location (rq_path (h_req hr))) as [H|H]; [do 2 eexists; by apply gw_api|].
  destruct (existsb (fun x => has_prefix x (rq_path (h_req hr))) own_pages) eqn:E.
  - apply existsb_exists in E as (x & Hx%elem_of_list_In & Hp). do 2 eexists. by eapply gw_own.
  - do 2 eexists. apply gw_root; [done|]. intros x Hx. destruct (has_prefix x _) eqn:Hp; [|done].
    assert (existsb (fun x => has_prefix x (rq_path (h_req hr))) own_pages = true); [|congruence]. apply existsb_exists. exists x. by rewrite <- elem_of_list_In.
Qed.
(** A GET of one object of a cached type through the gateway, whatever credentials it has: the object as it was
    cached last, or 404. *)
Theorem C83_get (E : env) (cf : config) (conf : gmap gvr (gmap gostr gostr)) (h : list call) (st : store) (clients : gset gostr) (up : apis) (token : gostr)
    (hr hr' : http_req) (g : gvr) (ns : option gostr) (name : gostr) (d : dest) (o : option reply) :
  run_calls E (new_store conf) h = Ok st -> is_Some (conf !! g) -> cf_token cf = [] \/ occurs (cf_token cf) (str "Bearer " ++ token) ->
  gate_addr g ns (Some name) -> api_addr g ns (Some name) -> rq_method (h_req hr) = str "GET" -> rq_path (h_req hr) = api_path g ns (Some name) -> rq_raw (h_req hr) = [] ->
  gateway token hr d hr' -> serve E cf clients st up hr' o -> d = ToCkube /\
  (forall h1 k h2 x, h = h1 ++ k :: h2 -> stores_key E conf k g (cf_default cf) (default [] ns) name x ->
     Forall (fun k => ~ touches_key E conf k g (cf_default cf) (default [] ns) name) h2 ->
     exists x', o = Some (Reply 200 [BObject x']) /\ stored_as (cf_default cf) x x') /\
  ((forall h1 k h2 x, h = h1 ++ k :: h2 -> stores_key E conf k g (cf_default cf) (default [] ns) name x ->
     ~ Forall (fun k => ~ touches_key E conf k g (cf_default cf) (default [] ns) name) h2) ->
   o = Some (Reply 404 [BStatus 404 (str "resource not found")])).
Proof.
  intros Hrun Hg Ht Hga Ha Hm Hp Hraw Hgw Hs.
  assert (~ watching (rq_raw (h_req hr))) as Hw by (rewrite Hraw; intros H%watching_iff; by vm_compute in H).
  apply (C83_reads token (cf_token cf) hr hr' g ns (Some name) d Hga Ha Hp Hm Hw Ht) in Hgw as (-> & -> & _). split; [done|].
  by apply (C60_get E cf conf h st clients up (bearer token hr) g ns name o).
Qed.
(** A list of a cached type through the gateway, whatever credentials it has: every object of the default cluster
    that the cache has, of the namespace if one is given, once. *)
Theorem C83_list (E : env) (cf : config) (conf : gmap gvr (gmap gostr gostr)) (h : list call) (st : store) (clients : gset gostr) (up : apis) (token : gostr)
    (hr hr' : http_req) (g : gvr) (ns : option gostr) (d : dest) (o : option reply) :
  Forall kube_call h -> run_calls E (new_store conf) h = Ok st -> is_Some (conf !! g) -> cf_token cf = [] \/ occurs (cf_token cf) (str "Bearer " ++ token) ->
  gate_addr g ns None -> api_addr g ns None -> rq_method (h_req hr) = str "GET" -> rq_path (h_req hr) = api_path g ns None -> rq_raw (h_req hr) = [] ->
  ~ occurs (str "application/json;as=Table") (rq_accept (h_req hr)) -> cf_default cf <> [] -> legal_value (cf_default cf) ->
  gateway token hr d hr' -> serve E cf clients st up hr' o -> d = ToCkube /\
  exists ks es, NoDup ks /\
    Forall2 (fun k e => k.1.1 = cf_default cf /\ lookup_entry st g (cf_default cf) k.1.2 k.2 = Some e /\ (forall n, ns = Some n -> k.1.2 = n)) ks es /\
    (forall n x e, lookup_entry st g (cf_default cf) n x = Some e -> (forall m, ns = Some m -> n = m) -> (cf_default cf, n, x) ∈ ks) /\
    ((Z.of_nat (length es) < 2 ^ 63)%Z ->
     exists api kind, list_head cf g api kind /\ o = Some (Reply 200 [BList api kind (api_path g ns None) 0 (map en_obj es)])).
Proof.
  intros Hk Hrun Hg Ht Hga Ha Hm Hp Hraw Hacc Hd Hleg Hgw Hs.
  assert (~ watching (rq_raw (h_req hr))) as Hw by (rewrite Hraw; intros H%watching_iff; by vm_compute in H).
  apply (C83_reads token (cf_token cf) hr hr' g ns None d Hga Ha Hp Hm Hw Ht) in Hgw as (-> & -> & _). split; [done|].
  by apply (C60_list E cf conf h st clients up (bearer token hr) g ns o).
Qed.
(** ** Findings and examples *)
(** Anyone gets the answers: what is sent for an API request, and so the reply, does not depend on the client's
    Authorization header. *)
Theorem C83_no_credentials (token h h' : gostr) (r : request) (d : dest) (x : http_req) : ~ own_page (rq_path r) ->
  gateway token (HttpReq h r) d x -> gateway token (HttpReq h' r) d x.
Proof.
  intros Hno Hg. inversion Hg as [A|y A Y P|A N]; subst; cbn [h_req] in *.
  - exact (gw_api token (HttpReq h' r) A).
  - exfalso. apply Hno, own_iff. by exists y.
  - exact (gw_root token (HttpReq h' r) A N).
Qed.
(** With a token in ckube's configuration that is no part of the service account's, a client behind the gateway that
    has the right token is refused. *)
Definition pods_get (auth raw : gostr) : http_req := HttpReq auth (Request (str "GET") (str "/api/v1/namespaces/default/pods") ∅ raw None [] []).
Lemma pods_addr : gate_addr ([], str "v1", str "pods") (Some (str "default")) None.
Proof.
  assert (forall s, s <> [] -> forallb wchar s = true -> gate_word s) as Hw.
  { intros s H1 H2. split; [done|]. apply Forall_forall. intros c Hc. apply wchar_iff. rewrite forallb_forall in H2. apply H2. by apply elem_of_list_In. }
  split; [by left|]. split; [by apply Hw|]. split; [by apply Hw|]. split; [intros n [= <-]; by apply Hw|by intros n].
Qed.
Lemma pods_location : api_location (str "/api/v1/namespaces/default/pods").
Proof. apply C83_paths. exists ([], str "v1", str "pods"), (Some (str "default")), None. split; [exact pods_addr|by left]. Qed.
Theorem C83_right_token_refuted : exists token tok hr hr', occurs tok (h_auth hr) /\ gateway token hr ToCkube hr' /\
  dispatch route_handles tok hr <> DUnauthorized /\ dispatch route_handles tok hr' = DUnauthorized.
Proof.
  exists (str "sa-jwt"), (str "s3cret"), (pods_get (str "Bearer s3cret") []), (bearer (str "sa-jwt") (pods_get (str "Bearer s3cret") [])).
  split; [exists (str "Bearer "), []; reflexivity|]. split.
  - exact (gw_api (str "sa-jwt") (pods_get (str "Bearer s3cret") []) pods_location).
  - split; [vm_compute; discriminate|vm_compute; reflexivity].
Qed.
(** ckube takes watch=y for a watch, the gateway does not: such a watch goes through ckube. *)
Theorem C83_watch_y : exists token hr hr', gateway token hr ToCkube hr' /\ is_watch (h_req hr) = true /\ rq_raw (h_req hr) = str "watch=y".
Proof.
  exists (str "sa-jwt"), (pods_get [] (str "watch=y")), (bearer (str "sa-jwt") (pods_get [] (str "watch=y"))).
  split; [exact (gw_api (str "sa-jwt") (pods_get [] (str "watch=y")) pods_location)|]. split; [vm_compute; reflexivity|reflexivity].
Qed.
(** A list that is no watch is taken from ckube; a watch of the same path is not. *)
Example C83_ex : gateway (str "sa-jwt") (pods_get (str "x") (str "limit=5")) ToCkube (bearer (str "sa-jwt") (pods_get (str "x") (str "limit=5"))) /\
  ~ watching (str "limit=5") /\ api_addr ([], str "v1", str "pods") (Some (str "default")) None /\
  gateway (str "sa-jwt") (pods_get [] (str "limit=5&Watch=True")) ToKube (bearer (str "sa-jwt") (pods_get [] (str "limit=5&Watch=True"))) /\
  watching (str "limit=5&Watch=True") /\ ~ own_page (str "/api/v1/namespaces/default/pods").
Proof.
  split; [exact (gw_api (str "sa-jwt") (pods_get (str "x") (str "limit=5")) pods_location)|].
  split; [intros H%watching_iff; by vm_compute in H|]. split.
  { assert (forall s, s <> [] -> "/"%char ∉ s -> s <> str "." -> s <> str ".." -> plain_seg s) as Hp by done.
    assert (forall s, s <> [] -> forallb wchar s = true -> s <> str "." -> s <> str ".." -> plain_seg s) as Hq.
    { intros s H1 H2 H3 H4. apply Hp; [done| |done|done]. intros Hin%elem_of_list_In. rewrite forallb_forall in H2. by specialize (H2 _ Hin). }
    split; [by left|]. split; [by apply Hq|]. split; [by apply Hq|]. split; [intros n [= <-]; by apply Hq|by intros n]. }
  split; [exact (gw_api (str "sa-jwt") (pods_get [] (str "limit=5&Watch=True")) pods_location)|].
  split; [apply watching_iff; vm_compute; reflexivity|]. apply api_not_own, pods_location.
Qed.

Lemma any_header (h : gostr) (hr : http_req) : dispatch route_handles [] (HttpReq h (h_req hr)) = dispatch route_handles [] hr.
Proof. unfold dispatch. cbn [h_req]. destruct (negb _); [done|]. destruct (find_route _ _ _) as [[rt vars]|]; [|done]. rewrite str_eqb_refl, !andb_false_r. done. Qed.
Lemma serve_header (E : env) cf clients st up hr o (h : gostr) : cf_token cf = [] -> serve E cf clients st up hr o -> serve E cf clients st up (HttpReq h (h_req hr)) o.
Proof.
  intros Ht Hs. destruct Hs as [p H|H|H|hd r s p H Hh]; rewrite Ht, <- (any_header h) in H; rewrite <- Ht in H.
  - exact (serve_redirect E cf clients st up _ _ H).
  - exact (serve_missing E cf clients st up _ H).
  - exact (serve_refused E cf clients st up _ H).
  - exact (serve_run E cf clients st up _ _ _ _ _ H Hh).
Qed.
(** The pod of C60_ex_get, through the gateway. *)
Example C83_ex_get : let hr := ex_hreq (api_path pods (Some (str "default")) (Some (str "a"))) in
  gateway (str "sa-jwt") hr ToCkube (bearer (str "sa-jwt") hr) /\ gate_addr pods (Some (str "default")) (Some (str "a")) /\
  exists o, serve ex_env ex_cf ex_clients ex_store ex_apis (bearer (str "sa-jwt") hr) o /\ reply_ids o = Some (200%Z, [[str "default/a"]]).
Proof.
  intros hr. destruct C60_ex_get as (_ & _ & _ & (o & Ho & Hid) & _).
  assert (gate_addr pods (Some (str "default")) (Some (str "a"))) as Hg.
  { destruct pods_addr as (A1 & A2 & A3 & A4 & _). split; [exact A1|]. split; [exact A2|]. split; [exact A3|]. split; [exact A4|].
    intros n [= <-]. split; [done|]. intros [H|H%elem_of_nil]%elem_of_cons; [discriminate H|done]. }
  split; [|split; [exact Hg|]].
  - apply (gw_api (str "sa-jwt") hr). apply C83_paths. exists pods, (Some (str "default")), (Some (str "a")). split; [exact Hg|by left].
  - exists o. split; [|exact Hid]. by apply (serve_header ex_env ex_cf ex_clients ex_store ex_apis hr o (str "Bearer sa-jwt")).
Qed.
(** All pods of the namespace in the default cluster, through the gateway. *)
Definition list_vars : gmap gostr gostr := list_to_map [(str "version", str "v1"); (str "namespace", str "default"); (str "resourceType", str "pods")].
Example C83_ex_list : let hr := ex_hreq (api_path pods (Some (str "default")) None) in
  gateway (str "sa-jwt") hr ToCkube (bearer (str "sa-jwt") hr) /\ legal_value (cf_default ex_cf) /\
  exists o, serve ex_env ex_cf ex_clients ex_store ex_apis (bearer (str "sa-jwt") hr) o /\ reply_ids o = Some (200%Z, [[str "default/a"; str "default/b"]]).
Proof.
  intros hr. split; [|split; [apply valid_value_legal; by vm_compute|]].
  - apply (gw_api (str "sa-jwt") hr). apply C83_paths. exists pods, (Some (str "default")), None. split; [exact pods_addr|by left].
  - assert (dispatch route_handles [] (bearer (str "sa-jwt") hr) = DRun HProxy (with_vars (h_req (bearer (str "sa-jwt") hr)) list_vars) 200) as Hd by (vm_compute; reflexivity).
    eexists. split; [eapply (serve_run ex_env ex_cf ex_clients ex_store ex_apis _ HProxy _ 200 _ Hd); apply handle_proxy;
      apply (proxy_list ex_env ex_cf ex_clients ex_store _ [] (fun _ m => map_to_list m) zero_page None c1 (with_raw (with_vars (h_req (bearer (str "sa-jwt") hr)) list_vars) []) (query_with ex_env false ex_store pods (str "default") (store_page (add_default_cluster ex_cf zero_page) None)));
      [reflexivity|reflexivity|vm_compute; reflexivity|reflexivity|done|apply (query_with_ok ex_env false)]|].
    vm_compute. reflexivity.
Qed.

Print Assumptions C83_paths.
Print Assumptions C83_reads.
Print Assumptions C83_only_reads.
Print Assumptions C83_others.
Print Assumptions C83_one_place.
Print Assumptions C83_some_place.
Print Assumptions C83_get.
Print Assumptions C83_list.
Print Assumptions C83_no_credentials.
Print Assumptions C83_right_token_refuted.
Print Assumptions C83_watch_y.
