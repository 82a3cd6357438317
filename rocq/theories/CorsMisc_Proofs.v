(** * More about the CORS middleware, and the security headers *)
From Coq Require Import List NArith ZArith Ascii String Bool Lia Arith Permutation.
From Verif Require Import GoBase Http_Model Auth_Model Auth_Proofs Csrf_Model Csrf_Spec Csrf_Proofs OAuthUrl_Proofs Chain_Model.
From Verif Require Import Resp_Model Resp_Spec Resp_Proofs RespBody_Proofs RespMisc_Proofs Cors_Model Cors_Spec Cors_Proofs.
Import ListNotations.
Local Open Scope string_scope.
Local Open Scope list_scope.
Local Open Scope nat_scope.

(** ** Browser origins are valid *)

Lemma letter_iff c : is_alpha c = true <-> letter c.
Proof. unfold is_alpha, letter. rewrite orb_true_iff, !andb_true_iff, !N.leb_le. tauto. Qed.

Lemma scheme_read s : forall acc r raw, (forall c, In c s -> letter c) -> (acc <> [] \/ s <> []) ->
  get_scheme acc (s ++ ":"%char :: r) raw = Some (rev acc ++ s, r).
Proof.
  induction s as [|c s IH]; intros acc r raw L N.
  - cbn. destruct acc as [|a acc]; [now destruct N|]. now rewrite app_nil_r.
  - cbn [app get_scheme]. rewrite (proj2 (letter_iff c)) by (apply L; now left). rewrite IH.
    + cbn [rev]. now rewrite <- app_assoc.
    + intros x I1. apply L. now right.
    + left. discriminate.
Qed.

Lemma before_none c s : ~ In c s -> before c s = s.
Proof.
  induction s as [|x s IH]; [reflexivity|]. cbn. intro N. destruct (Ascii.eqb_spec x c) as [->|D]; [exfalso; tauto|].
  rewrite IH; [reflexivity|tauto].
Qed.

(** The bytes of a host with port. *)
Definition authority_byte (c : byte) : bool := is_alpha c || is_num c || existsb (Ascii.eqb c) (str "-._:[]").

Lemma authority_bytes : forall c, authority_byte c = true ->
  host_byte c = true /\ c <> "%"%char /\ c <> "?"%char /\ c <> "/"%char /\ c <> "@"%char /\ (32 <= code c)%N /\ code c <> 127%N.
Proof.
  intros c A.
  assert (H : negb (authority_byte c) || (host_byte c && negb (Ascii.eqb c "%"%char) && negb (Ascii.eqb c "?"%char) && negb (Ascii.eqb c "/"%char)
              && negb (Ascii.eqb c "@"%char) && (32 <=? code c)%N && negb (code c =? 127)%N) = true).
  { revert c A. refine (fun c _ => all_bytes (fun c => negb (authority_byte c) || (host_byte c && negb (Ascii.eqb c "%"%char) && negb (Ascii.eqb c "?"%char) && negb (Ascii.eqb c "/"%char)
              && negb (Ascii.eqb c "@"%char) && (32 <=? code c)%N && negb (code c =? 127)%N)) _ c). vm_compute. reflexivity. }
  rewrite A in H. cbn [negb orb] in H. rewrite !andb_true_iff, !negb_true_iff in H.
  destruct H as ((((((H1 & H2) & H3) & H4) & H5) & H6) & H7).
  apply Ascii.eqb_neq in H2, H3, H4, H5. apply N.leb_le in H6. apply N.eqb_neq in H7. auto 10.
Qed.

Lemma name_ok c : name_byte c -> authority_byte c = true /\ c <> "["%char /\ c <> ":"%char.
Proof.
  intros [L|[D|[->|[->| ->]]]]; try (vm_compute; repeat split; discriminate).
  - split; [unfold authority_byte; now rewrite (proj2 (letter_iff c) L)|].
    split; intros ->; vm_compute in L; destruct L as [[A B]|[A B]]; try (now apply A); now apply B.
  - split; [unfold authority_byte; rewrite (proj2 (is_num_iff c) D); now rewrite orb_true_r|].
    split; intros ->; vm_compute in D; destruct D as [A B]; try (now apply A); now apply B.
Qed.

Lemma digit_ok p : all_digits p -> forall c, In c p -> authority_byte c = true.
Proof. intros D c I1. apply D in I1. unfold authority_byte. rewrite (proj2 (is_num_iff c) I1). now rewrite orb_true_r. Qed.

Lemma host_not_bracket (A : Type) c (x y : A) : c <> "["%char -> (match c with "["%char => x | _ => y end) = y.
Proof. intro N. destruct c as [[] [] [] [] [] [] [] []]; try reflexivity. now elim N. Qed.

Lemma authority_read n t : host_text n -> (t = [] \/ exists p, all_digits p /\ t = ":"%char :: p) ->
  parse_authority (n ++ t) = true /\ (forall c, In c (n ++ t) -> authority_byte c = true).
Proof.
  intros HT T.
  assert (BT : forall c, In c t -> authority_byte c = true).
  { destruct T as [->|(p & D & ->)]; [easy|]. intros c [<-|I1]; [reflexivity|]. eapply digit_ok; eauto. }
  assert (VT : valid_optional_port t = true).
  { destruct T as [->|(p & D & ->)]; [reflexivity|]. cbn. now apply digits_iff. }
  assert (BN : forall c, In c n -> authority_byte c = true).
  { destruct HT as [[_ H]|(a & -> & H)].
    - intros c I1. now apply name_ok, H.
    - intros c I1. rewrite !in_app_iff in I1. destruct I1 as [[<-|[]]|[I1|[<-|[]]]]; try reflexivity.
      apply H in I1. destruct I1 as [I1| ->]; [now apply name_ok|reflexivity]. }
  assert (B : forall c, In c (n ++ t) -> authority_byte c = true).
  { intros c I1. apply in_app_iff in I1. destruct I1; auto. }
  split; [|exact B]. unfold parse_authority.
  replace (from_last "@"%char (n ++ t)) with (@None bytes).
  2: { symmetry. apply from_last_none. intro I1. apply B in I1. discriminate I1. }
  unfold parse_host. apply andb_true_iff. split.
  2: { apply forallb_forall. intros c I1. now apply authority_bytes, B. }
  destruct HT as [[NE H]|(a & -> & H)].
  - destruct n as [|c n]; [congruence|]. cbn [app]. rewrite host_not_bracket by (apply name_ok, H; now left).
    change (c :: n ++ t) with ((c :: n) ++ t). destruct T as [->|(p & D & ->)].
    + rewrite app_nil_r. replace (from_last ":"%char (c :: n)) with (@None bytes); [reflexivity|]. symmetry. apply from_last_none.
      intro I1. apply H in I1. apply name_ok in I1. tauto.
    + rewrite from_last_eq by now apply digits_no_colon. exact VT.
  - change ((str "[" ++ a ++ str "]") ++ t) with ("["%char :: ((a ++ str "]") ++ t)). cbv iota.
    replace (from_last "]"%char ("["%char :: (a ++ str "]") ++ t)) with (Some ("]"%char :: t)); [exact VT|].
    symmetry. change ("["%char :: (a ++ str "]") ++ t) with (("["%char :: a ++ str "]") ++ t).
    replace (("["%char :: a ++ str "]") ++ t) with (("["%char :: a) ++ "]"%char :: t).
    2: { cbn [app]. now rewrite <- app_assoc. }
    apply from_last_eq. destruct T as [->|(p & D & ->)]; [easy|]. intros [E|I1]; [discriminate E|]. apply D in I1. vm_compute in I1.
    destruct I1 as [_ I1]. now apply I1.
Qed.

Lemma scheme_ok s : scheme_text s -> forall c, In c s -> authority_byte c = true.
Proof. intros [_ L] c I1. apply L in I1. unfold authority_byte. now rewrite (proj2 (letter_iff c) I1). Qed.

Lemma get_scheme_colon s raw : forall acc, ~ In ":"%char s -> get_scheme acc s raw = Some ([], raw).
Proof.
  induction s as [|c s IH]; intros acc N; [reflexivity|]. cbn [get_scheme].
  assert (N' : ~ In ":"%char s) by (intro; apply N; now right).
  destruct (is_alpha c); [auto|].
  destruct (is_num c || existsb (Ascii.eqb c) (str "+-.")); [destruct acc; auto|].
  destruct (Ascii.eqb_spec c ":"%char) as [->|]; [exfalso; apply N; now left|reflexivity].
Qed.

Lemma no_origin_invalid o : no_origin o -> valid_origin o = false.
Proof.
  unfold valid_origin. intros [->|[I1|[N D]]]; [reflexivity| |].
  - replace (existsb (Ascii.eqb "%"%char) o) with true; [now rewrite orb_true_r|].
    symmetry. apply existsb_exists. exists "%"%char. split; [exact I1|apply Ascii.eqb_refl].
  - destruct (beqb o [] || existsb (Ascii.eqb "%"%char) o); [reflexivity|].
    replace (beqb o (str "null")) with false by (symmetry; apply not_true_is_false; intro H; apply beqb_iff in H; contradiction).
    replace (beqb (firstn 7 o) (str "file://")) with false.
    2: { symmetry. apply not_true_is_false. intro H. apply beqb_iff in H. apply N. rewrite <- (firstn_skipn 7 o), H. apply in_app_iff. left. cbn. tauto. }
    cbn [orb]. unfold parse_request_uri.
    destruct (existsb _ o); [reflexivity|].
    rewrite get_scheme_colon by exact N. cbv iota zeta beta.
    match goal with |- match ?t with _ => _ end = false => assert (T : t = None \/ t = Some []); [|destruct T as [-> | ->]; reflexivity] end.
    assert (R : forall x y : option bytes, (x = None \/ x = Some []) -> (y = None \/ y = Some []) ->
      match o with [] => None | ["*"%char] => x | _ => y end = None \/ match o with [] => None | ["*"%char] => x | _ => y end = Some []).
    { clear. intros x y X Y. destruct o as [|c [|z o]]; [auto| |]; destruct c as [[] [] [] [] [] [] [] []]; assumption. }
    apply R; [auto|]. clear. destruct (before "?"%char o) as [|x [|y u]]; [auto| |].
    + destruct x as [[] [] [] [] [] [] [] []]; auto.
    + destruct (Ascii.eqb_spec x "/"%char) as [->|X].
      * destruct y as [[] [] [] [] [] [] [] []]; auto.
      * destruct x as [[] [] [] [] [] [] [] []]; auto; congruence.
Qed.

Lemma refused_no_origin {World : Type} (h : handler xreq response World) c x q w o :
  carries q h_origin o -> no_origin o ->
  cors c h x q w =
  (match fst (h x q w) with
   | HPanic v => HPanic v
   | HReturn _ (Some e) => HReturn None (Some e)
   | HReturn _ None => HReturn None (Some EAccessDenied)
   end, snd (h x q w)).
Proof.
  intros CO NO. assert (T : request_type q = InvalidCors).
  { destruct (request_type q) eqn:E; try reflexivity; exfalso;
    (assert (V : valid_origin o = true) by (eapply type_valid; [exact CO|congruence])); rewrite no_origin_invalid in V by exact NO; discriminate V. }
  unfold cors. rewrite T. destruct (h x q w) as [[r [e|]|v] w']; reflexivity.
Qed.

Lemma browser_valid o : browser_origin o -> valid_origin o = true.
Proof.
  intros [->|(s & n & SC & HT & O)]; [reflexivity|].
  assert (X : exists t, o = s ++ ":"%char :: "/"%char :: "/"%char :: (n ++ t) /\ (t = [] \/ exists p, all_digits p /\ t = ":"%char :: p)).
  { destruct O as [->|(p & D & ->)].
    - exists []. rewrite app_nil_r. auto.
    - exists (":"%char :: p). split; [reflexivity|eauto]. }
  clear O. destruct X as (t & -> & T). destruct (authority_read n t HT T) as [PA BA].
  set (u := n ++ t) in *. clearbody u.
  assert (B : forall c, In c (s ++ ":"%char :: "/"%char :: "/"%char :: u) -> c <> "%"%char /\ (32 <= code c)%N /\ code c <> 127%N).
  { intros c I1. apply in_app_iff in I1. destruct I1 as [I1|[<-|[<-|[<-|I1]]]]; try (split; [discriminate|split; [vm_compute; discriminate|vm_compute; discriminate]]).
    - apply (scheme_ok s SC), authority_bytes in I1. tauto.
    - apply BA, authority_bytes in I1. tauto. }
  assert (P : parse_request_uri (s ++ ":"%char :: "/"%char :: "/"%char :: u) = Some (to_lower s)).
  { unfold parse_request_uri.
    replace (existsb _ _) with false.
    2: { symmetry. apply not_true_is_false. intro H. apply existsb_exists in H. destruct H as (c & I1 & H). apply B in I1. destruct I1 as (_ & I1 & I2).
         apply orb_prop in H. destruct H as [H|H]; [apply N.ltb_lt in H; lia|apply N.eqb_eq in H; congruence]. }
    assert (G : get_scheme [] (s ++ ":"%char :: "/"%char :: "/"%char :: u) (s ++ ":"%char :: "/"%char :: "/"%char :: u) = Some (s, "/"%char :: "/"%char :: u)).
    { rewrite scheme_read; [reflexivity|apply SC|right; apply SC]. }
    destruct s as [|c s]; [now destruct SC|]. cbn [app] in *.
    assert (Y : forall (A : Type) (f g k : A), (match s ++ ":"%char :: "/"%char :: "/"%char :: u with [] => f | _ :: _ => k end) = k) by (intros; now destruct s).
    assert (Z : (match c :: s ++ ":"%char :: "/"%char :: "/"%char :: u with ["*"%char] => false | _ => true end) = true).
    { destruct (s ++ ":"%char :: "/"%char :: "/"%char :: u) eqn:E; [destruct s; discriminate E|]. destruct c as [[] [] [] [] [] [] [] []]; reflexivity. }
    destruct (s ++ ":"%char :: "/"%char :: "/"%char :: u) as [|x v] eqn:E; [destruct s; discriminate E|].
    rewrite G. cbv iota.
    assert (BQ : before "?"%char ("/"%char :: "/"%char :: u) = "/"%char :: "/"%char :: u).
    { apply before_none. intros [H|[H|H]]; try discriminate H. apply BA, authority_bytes in H. tauto. }
    rewrite BQ. cbv iota beta zeta.
    rewrite before_none by (intro H; apply BA, authority_bytes in H; tauto). rewrite PA.
    destruct c as [[] [] [] [] [] [] [] []]; reflexivity. }
  unfold valid_origin. rewrite P.
  replace (existsb (Ascii.eqb "%"%char) (s ++ ":"%char :: "/"%char :: "/"%char :: u)) with false.
  2: { symmetry. apply not_true_is_false. intro H. apply existsb_exists in H. destruct H as (c & I1 & H). apply B in I1.
       apply Ascii.eqb_eq in H. subst c. tauto. }
  destruct s as [|c s]; [now destruct SC|]. cbn [app]. cbn [beqb orb].
  destruct (_ || _); reflexivity.
Qed.

(** ** C42: the Vary header *)

Lemma split_no_sep c s p : In p (split_on c s) -> ~ In c p.
Proof.
  revert p. induction s as [|x s IH]; intros p; cbn.
  - intros [<-|[]]. easy.
  - destruct (Ascii.eqb_spec x c) as [->|D].
    + intros [<-|H]; [easy|now apply IH].
    + destruct (split_on c s) as [|q l] eqn:E; [now elim (split_nonempty c s)|]. intros [<-|H].
      * intros [K|K]; [congruence|]. revert K. apply IH. now left.
      * apply IH. now right.
Qed.

Lemma trim_sub s : forall c, In c (trim_space s) -> In c s.
Proof.
  intros c H. destruct (trim_space_split s) as (a & b & _ & _ & E). rewrite E. rewrite !in_app_iff. auto.
Qed.

Lemma fields_of_join l : l <> [] -> (forall s, In s l -> ~ In ","%char s /\ trim_space s = s) ->
  vary_fields (join (str ",") l) = filter (fun f => negb (beqb f [])) l.
Proof.
  intros NE H. unfold vary_fields. rewrite split_join.
  - f_equal. rewrite <- (map_id l) at 2. apply map_ext_in. intros s I1. now apply H.
  - exact NE.
  - intros s x I1 I2 ->. now apply (H s I1).
Qed.

Lemma star_field v : In (str "*") (vary_fields v) <-> In (str "*") (map trim_space (split_on ","%char v)).
Proof. unfold vary_fields. rewrite filter_In. split; [tauto|]. intro H. split; [exact H|reflexivity]. Qed.

Lemma vary_grows m name : field_name name -> ~ In (str "*") (vary_fields (vary_of m)) ->
  vary_fields (vary_of (add_vary m name)) = vary_fields (vary_of m) ++ [name].
Proof.
  intros (NE & NC & TR & NS) N. unfold add_vary. cbv zeta. rewrite (beqb_ne name (str "*")) by exact NS. cbn [orb].
  unfold vary_of in *. change (str "Vary") with h_vary in *. destruct (alookup h_vary m) as [[|c v]|] eqn:L; cbn [List.length Nat.eqb].
  - rewrite set_this. change (vary_fields []) with (@nil bytes). cbn [app].
    change name with (join (str ",") [name]) at 1. rewrite fields_of_join; [|discriminate|].
    + cbn. destruct name; [congruence|reflexivity].
    + intros s [<-|[]]. auto.
  - set (vs := map trim_space (split_on ","%char (c :: v))).
    assert (V : vs <> []).
    { unfold vs. pose proof (split_nonempty ","%char (c :: v)). destruct (split_on ","%char (c :: v)); [congruence|discriminate]. }
    assert (S : ~ In (str "*") vs) by (intro I1; apply N, star_field, I1).
    assert (TT : forall s, In s vs -> trim_space s = s /\ ~ In ","%char s).
    { intros s I1. unfold vs in I1. apply in_map_iff in I1. destruct I1 as (p & <- & I1). split; [apply trim_twice|].
      intro K. apply trim_sub in K. eapply split_no_sep; eauto. }
    replace (List.length vs =? 0) with false by (destruct vs; [congruence|reflexivity]).
    assert (E1 : existsb (fun v0 => beqb (trim_space v0) (str "*")) vs = false).
    { apply not_true_is_false. intro H. apply existsb_exists in H. destruct H as (s & I1 & H). apply beqb_iff in H. rewrite (proj1 (TT s I1)) in H. now subst s. }
    replace ((List.length vs =? 1) && beqb (trim_space (nth 0 vs [])) (str "*")) with false.
    2: { symmetry. destruct vs as [|y vs]; [congruence|]. cbn [nth]. cbn [existsb] in E1. apply orb_false_iff in E1. rewrite (proj1 E1). apply andb_false_r. }
    rewrite E1. rewrite set_this. rewrite fields_of_join.
    + rewrite filter_app. unfold vary_fields. fold vs. apply f_equal. cbn. destruct name; [congruence|reflexivity].
    + destruct vs; [congruence|discriminate].
    + intros s I1. apply in_app_iff in I1. destruct I1 as [I1|[<-|[]]]; [|auto]. apply TT in I1. tauto.
  - rewrite set_this. change (vary_fields []) with (@nil bytes). cbn [app].
    change name with (join (str ",") [name]) at 1. rewrite fields_of_join; [|discriminate|].
    + cbn. destruct name; [congruence|reflexivity].
    + intros s [<-|[]]. auto.
Qed.

Lemma vary_star m name : In (str "*") (vary_fields (vary_of m)) \/ name = str "*" ->
  vary_fields (vary_of (add_vary m name)) = [str "*"].
Proof.
  intro H. unfold add_vary. cbv zeta. destruct (beqb name (str "*")) eqn:B.
  { apply beqb_iff in B. subst name. cbn [orb]. unfold vary_of. rewrite set_this. reflexivity. }
  destruct H as [H| ->]; [|rewrite beqb_same in B; discriminate B]. cbn [orb].
  unfold vary_of in *. change (str "Vary") with h_vary in *. destruct (alookup h_vary m) as [[|c v]|] eqn:L; [destruct H| |destruct H].
  apply star_field in H. set (vs := map trim_space (split_on ","%char (c :: v))) in *.
  replace (List.length vs =? 0) with false by (destruct vs; [destruct H|reflexivity]).
  destruct ((List.length vs =? 1) && beqb (trim_space (nth 0 vs [])) (str "*")) eqn:E.
  - rewrite L. apply andb_prop in E. destruct E as [E1 _]. apply Nat.eqb_eq in E1. unfold vary_fields. fold vs.
    destruct vs as [|y [|z vs]]; cbn in E1; try lia. destruct H as [->|[]]. reflexivity.
  - replace (existsb (fun v0 => beqb (trim_space v0) (str "*")) vs) with true; [rewrite set_this; reflexivity|].
    symmetry. apply existsb_exists. exists (str "*"). split; [exact H|reflexivity].
Qed.

(** ** C43: security headers *)

Definition cached (c : sec_config) (k : sec_cache) : Prop :=
  (sc_sts k = [] \/ sc_sts k = wanted_sts c) /\ (sc_click k = [] \/ wanted_frame c (sc_click k)).

Lemma sts_right c k : cached c k -> fst (sts_value c k) = wanted_sts c /\ cached c (snd (sts_value c k)).
Proof.
  intros [S C]. unfold sts_value.
  assert (W : str "max-age=" ++ itoa_z (sh_max_age c) ++ (if sh_sub_domains c then str ";includeSubDomains" else []) ++
               (if sh_preload c then str ";preload" else []) = wanted_sts c).
  { unfold wanted_sts. destruct (sh_sub_domains c), (sh_preload c); cbn [app join]; rewrite ?app_nil_r, <- ?app_assoc; reflexivity. }
  destruct (sc_sts k) as [|x v] eqn:E; cbn [fst snd].
  - split; [exact W|]. split; cbn [sc_sts sc_click]; [right; exact W|exact C].
  - destruct S as [S|S]; [discriminate S|]. split; [exact S|]. split; [right; now rewrite E|exact C].
Qed.

Lemma click_right c k : cached c k -> wanted_frame c (fst (click_value c k)) /\ cached c (snd (click_value c k)).
Proof.
  intros [S C]. unfold click_value.
  assert (W : wanted_frame c (sh_frame_value c ++ (if (sh_frame c =? xfo_allow_from)%Z then str " " ++ sh_frame_uri c else []))).
  { unfold wanted_frame. destruct (Z.eqb_spec (sh_frame c) xfo_allow_from) as [E|E]; [left; auto|right]. rewrite app_nil_r. auto. }
  destruct (sc_click k) as [|x v] eqn:E; cbn [fst snd].
  - split; [exact W|]. split; cbn [sc_sts sc_click]; [exact S|right; exact W].
  - destruct C as [C|C]; [discriminate C|]. split; [exact C|]. split; [exact S|right; now rewrite E].
Qed.

(** One step: a header that is on is set, all else is kept. *)
Lemma sec_step r name v : has_headers r ->
  exists r' m m', set_on (Some r) name v = Some (Some r') /\ has_headers r' /\ get_headers r = Some m /\ get_headers r' = Some m' /\
    kept_kind r' = kept_kind r /\ alookup name m' = Some v /\ forall n, n <> name -> alookup n m' = alookup n m.
Proof.
  intro H. destruct (header_set r name v H) as (r' & m & m' & E & G & G' & K & A & B). exists r', m, m'.
  unfold set_on. rewrite E. split; [reflexivity|]. split; [|auto 10].
  clear -E. revert r' E. unfold has_headers. induction r as [h|h p|h p|h p|h p|h p|h p n|h p| |hs cs a|l r IH|l]; cbn; intros r' E;
    try discriminate E; try (injection E as <-; exact I).
  destruct (set_header r name v) as [r2|]; [|discriminate E]. injection E as <-. cbn. now apply IH.
Qed.

Lemma has_map_true r : has_headers r -> has_map (Some r) = true.
Proof. intro H. destruct (headers_get r H) as (m & E). cbn. now rewrite E. Qed.

Section S.
Variable World : Type.
Variable h : handler xreq response World.
Variable c : sec_config.

Lemma secure_iff q : (xq_tls q || beqb (to_lower (xq_scheme q)) (str "https")) = true <-> secure q.
Proof. unfold secure. rewrite orb_true_iff, beqb_iff. tauto. Qed.

Lemma security_call x q w k : cached c k ->
  let i := h x q w in
  let o := security_headers c h x q (w, k) in
  secured_outcome c q (fst i) (fst o) /\ fst (snd o) = snd i /\ cached c (snd (snd o)).
Proof.
  intro CK. cbv zeta. unfold security_headers. cbn [fst snd]. destruct (h x q w) as [[r [e|]|v] w'] eqn:E; cbn [fst snd]; try (split; [destruct r; reflexivity|auto]).
  2: { split; [reflexivity|auto]. }
  set (sec := xq_tls q || beqb (to_lower (xq_scheme q)) (str "https")).
  assert (SEC : (sh_sts c && sec)%bool = true <-> sts_on c q).
  { unfold sts_on. rewrite andb_true_iff. unfold sec. now rewrite secure_iff. }
  set (step := fun (on : bool) (name : bytes) (value : sec_cache -> bytes * sec_cache)
                 (s : option (option response) * sec_cache) =>
          match s with
          | (None, k) => (None, k)
          | (Some r, k) =>
              if on then
                if has_map r then let (v, k') := value k in (set_on r name v, k') else (None, k)
              else (Some r, k)
          end).
  change (let s1 := step (sh_sts c && sec)%bool (str "Strict-Transport-Security") (sts_value c) (Some r, k) in
          let s2 := step (sh_click c) (str "X-Frame-Options") (click_value c) s1 in
          let s3 := step (sh_sniff c) (str "X-Content-Type-Options") (fun k => (str "nosniff", k)) s2 in
          let s4 := step (sh_xss c) (str "X-Xss-Protection") (fun k => (str "1; mode=block", k)) s3 in
          let o := match s4 with (Some r', k) => (HReturn r' None, (w', k)) | (None, k) => (runtime_panic, (w', k)) end in
          secured_outcome c q (HReturn r None) (fst o) /\ fst (snd o) = w' /\ cached c (snd (snd o))).
  assert (CS : forall on name value s, (forall k, cached c k -> cached c (snd (value k))) -> cached c (snd s) -> cached c (snd (step on name value s))).
  { intros on name value [[r0|] k0] HV H; cbn in *; [|exact H]. destruct on; [|exact H]. destruct (has_map r0); [|exact H].
    specialize (HV k0 H). destruct (value k0). exact HV. }
  cbv zeta.
  set (s1 := step (sh_sts c && sec)%bool _ _ _). assert (C1 : cached c (snd s1)) by (apply CS; [intros; now apply sts_right|exact CK]).
  assert (R1 : forall r0, r = Some r0 -> has_headers r0 -> exists r1 m0 m1, fst s1 = Some (Some r1) /\ has_headers r1 /\ get_headers r0 = Some m0 /\ get_headers r1 = Some m1 /\
     kept_kind r1 = kept_kind r0 /\
     alookup (str "Strict-Transport-Security") m1 = (if (sh_sts c && sec)%bool then Some (wanted_sts c) else alookup (str "Strict-Transport-Security") m0) /\
     forall n, n <> str "Strict-Transport-Security" -> alookup n m1 = alookup n m0).
  { intros r0 -> H. unfold s1, step. destruct (sh_sts c && sec)%bool.
    - rewrite (has_map_true r0 H). destruct (sts_right c k CK) as [F _]. destruct (sts_value c k) as [v k']. cbn [fst] in *. subst v.
      destruct (sec_step r0 (str "Strict-Transport-Security") (wanted_sts c) H) as (r' & m & m' & S1 & S2 & S3 & S4 & S5 & S6 & S7). exists r', m, m'. auto 10.
    - destruct (headers_get r0 H) as (m & G). exists r0, m, m. auto 10. }
  clearbody s1.
  set (s2 := step (sh_click c) _ _ s1). assert (C2 : cached c (snd s2)) by (apply CS; [intros; now apply click_right|exact C1]).
  assert (R2 : forall r0, fst s1 = Some (Some r0) -> has_headers r0 -> exists r1 m0 m1, fst s2 = Some (Some r1) /\ has_headers r1 /\ get_headers r0 = Some m0 /\ get_headers r1 = Some m1 /\
     kept_kind r1 = kept_kind r0 /\
     (if sh_click c then exists v, wanted_frame c v /\ alookup (str "X-Frame-Options") m1 = Some v else alookup (str "X-Frame-Options") m1 = alookup (str "X-Frame-Options") m0) /\
     forall n, n <> str "X-Frame-Options" -> alookup n m1 = alookup n m0).
  { intros r0 F0 H. unfold s2, step. destruct s1 as [o1 k1]. cbn [fst snd] in *. subst o1. destruct (sh_click c).
    - rewrite (has_map_true r0 H). destruct (click_right c k1 C1) as [F _]. destruct (click_value c k1) as [v k']. cbn [fst] in *.
      destruct (sec_step r0 (str "X-Frame-Options") v H) as (r' & m & m' & S1 & S2 & S3 & S4 & S5 & S6 & S7). exists r', m, m'. eauto 12.
    - destruct (headers_get r0 H) as (m & G). exists r0, m, m. auto 10. }
  clearbody s2.
  assert (RF : forall on name v s r0, fst s = Some (Some r0) -> has_headers r0 -> exists r1 m0 m1,
     fst (step on name (fun k => (v, k)) s) = Some (Some r1) /\ has_headers r1 /\ get_headers r0 = Some m0 /\ get_headers r1 = Some m1 /\
     kept_kind r1 = kept_kind r0 /\
     alookup name m1 = (if on then Some v else alookup name m0) /\
     forall n, n <> name -> alookup n m1 = alookup n m0).
  { intros on name v [o1 k1] r0 F0 H. cbn [fst snd] in *. subst o1. unfold step. destruct on.
    - rewrite (has_map_true r0 H). cbn [fst].
      destruct (sec_step r0 name v H) as (r' & m & m' & S1 & S2 & S3 & S4 & S5 & S6 & S7). exists r', m, m'. auto 10.
    - destruct (headers_get r0 H) as (m & G). exists r0, m, m. auto 10. }
  set (s3 := step (sh_sniff c) _ _ s2). assert (C3 : cached c (snd s3)) by (apply CS; [auto|exact C2]).
  pose proof (fun r0 => RF (sh_sniff c) (str "X-Content-Type-Options") (str "nosniff") s2 r0) as R3. fold s3 in R3. clearbody s3.
  set (s4 := step (sh_xss c) _ _ s3). assert (C4 : cached c (snd s4)) by (apply CS; [auto|exact C3]).
  pose proof (fun r0 => RF (sh_xss c) (str "X-Xss-Protection") (str "1; mode=block") s3 r0) as R4. fold s4 in R4. clearbody s4.
  clear RF CS step.
  split; [|destruct s4 as [[r4|] k4]; cbn [fst snd] in *; auto].
  unfold secured_outcome. destruct r as [r|]; [|exact I]. intro H.
  destruct (R1 r eq_refl H) as (r1 & m0 & m1 & F1 & H1 & G0 & G1 & K1 & A1 & B1).
  destruct (R2 r1 F1 H1) as (r2 & m1' & m2 & F2 & H2 & G1' & G2 & K2 & A2 & B2). assert (m1' = m1) by congruence. subst m1'.
  destruct (R3 r2 F2 H2) as (r3 & m2' & m3 & F3 & H3 & G2' & G3 & K3 & A3 & B3). assert (m2' = m2) by congruence. subst m2'.
  destruct (R4 r3 F3 H3) as (r4 & m3' & m4 & F4 & H4 & G3' & G4 & K4 & A4 & B4). assert (m3' = m3) by congruence. subst m3'.
  destruct s4 as [o4 k4]. cbn [fst snd] in *. subst o4. exists r4, m0, m4. split; [reflexivity|]. split; [exact G0|]. split; [exact G4|].
  split; [congruence|].
  assert (L1 : alookup (str "Strict-Transport-Security") m4 = alookup (str "Strict-Transport-Security") m1)
    by (rewrite B4, B3, B2 by discriminate; reflexivity).
  assert (L2 : alookup (str "X-Frame-Options") m4 = alookup (str "X-Frame-Options") m2)
    by (rewrite B4, B3 by discriminate; reflexivity).
  assert (L2' : alookup (str "X-Frame-Options") m1 = alookup (str "X-Frame-Options") m0) by (apply B1; discriminate).
  assert (L3 : alookup (str "X-Content-Type-Options") m4 = alookup (str "X-Content-Type-Options") m3)
    by (rewrite B4 by discriminate; reflexivity).
  assert (L3' : alookup (str "X-Content-Type-Options") m2 = alookup (str "X-Content-Type-Options") m0) by (rewrite B2, B1 by discriminate; reflexivity).
  assert (L4' : alookup (str "X-Xss-Protection") m3 = alookup (str "X-Xss-Protection") m0) by (rewrite B3, B2, B1 by discriminate; reflexivity).
  constructor.
  - intro O. rewrite L1, A1. now rewrite (proj2 SEC O).
  - intro O. rewrite L1, A1. destruct (sh_sts c && sec)%bool; [tauto|reflexivity].
  - intro O. rewrite O in A2. destruct A2 as (v & W & A2). exists v. rewrite L2. auto.
  - intro O. rewrite O in A2. congruence.
  - intro O. rewrite O in A3. congruence.
  - intro O. rewrite O in A3. congruence.
  - intro O. rewrite O in A4. congruence.
  - intro O. rewrite O in A4. congruence.
  - intros n N. cbn in N. rewrite B4, B3, B2, B1; [reflexivity|intro X; apply N; rewrite X; tauto..].
Qed.

(** All requests of a history, from the empty cache on. *)
Lemma security_history x qs : forall w k, cached c k ->
  let (wi, is) := serve_in_turn h x qs w in
  let (wo, os) := serve_in_turn (security_headers c h) x qs (w, k) in
  fst wo = wi /\ Forall2 (fun qi o => secured_outcome c (fst qi) (snd qi) o) (combine qs is) os /\ List.length is = List.length qs.
Proof.
  induction qs as [|q qs IH]; intros w k CK; cbn [serve_in_turn].
  - split; [reflexivity|]. split; [constructor|reflexivity].
  - destruct (security_call x q w k CK) as (S1 & S2 & S3). destruct (h x q w) as [i w1] eqn:E.
    destruct (security_headers c h x q (w, k)) as [o [w1' k1]] eqn:F. cbn [fst snd] in *. subst w1'.
    specialize (IH w1 k1 S3). destruct (serve_in_turn h x qs w1) as [wi is]. destruct (serve_in_turn (security_headers c h) x qs (w1, k1)) as [wo os].
    destruct IH as (I1 & I2 & I3). split; [exact I1|]. split; [|cbn; now rewrite I3]. cbn [combine]. constructor; [exact S1|exact I2].
Qed.

End S.

Definition no_cache : sec_cache := SecCache [] [].
Lemma no_cache_ok c : cached c no_cache.
Proof. split; left; reflexivity. Qed.
