(** Proofs about options for vegetation classes and stations. *)
From Coq Require Import Ascii String Reals List Bool ZArith Arith Lia.
From Verif Require Import RNum WinsModel PptModel AlbedoModel OptModel OptSpec.
Import ListNotations.
Local Open Scope string_scope.

(** ** texts *)
Lemma app_empty s : s ++ "" = s.
Proof. induction s as [|a s IH]; cbn; congruence. Qed.
Lemma app_assoc_s a b c : (a ++ b) ++ c = a ++ (b ++ c).
Proof. induction a as [|x a IH]; cbn; congruence. Qed.
Lemma prefix_spec sub : forall s, prefix sub s = true <-> exists b, s = sub ++ b.
Proof.
  induction sub as [|a sub IH]; intros s; [split; [intros _; now exists s|destruct s; reflexivity]|].
  destruct s as [|b s]; [split; [discriminate|intros (x & X); discriminate X]|]. simpl. destruct (ascii_dec a b) as [<-|N].
  - rewrite IH. split; intros (x & X); exists x; cbn in *; congruence.
  - split; [discriminate|]. intros (x & X). cbn in X. congruence.
Qed.
Lemma contains_spec sub s : sub <> "" -> (contains sub s = true <-> mentions sub s).
Proof.
  intros NE. unfold contains, mentions. induction s as [|a s IH].
  - cbn. destruct sub as [|b sub]; [contradiction|]. split; [discriminate|]. intros (x & y & X). destruct x; discriminate X.
  - cbn [index]. destruct (prefix sub (String a s)) eqn:P.
    + split; [|reflexivity]. intros _. apply prefix_spec in P. destruct P as (b & B). exists "", b. exact B.
    + assert (NP : ~ exists b, String a s = sub ++ b) by (intros X; apply prefix_spec in X; congruence).
      destruct (index 0 sub s) as [n|].
      * split; [|reflexivity]. intros _. destruct (proj1 IH eq_refl) as (x & y & ->). exists (String a x), y. reflexivity.
      * split; [discriminate|]. intros (x & y & X). destruct x as [|c x]; [exfalso; apply NP; exists y; exact X|].
        cbn in X. injection X as _ X. apply IH. now exists x, y.
Qed.

Lemma split_cons s : exists w ws, split_us s = w :: ws.
Proof. destruct s as [|a s]; cbn; [eauto|]. destruct (Ascii.eqb a "_"); [eauto|]. destruct (split_us s); eauto. Qed.
Lemma split_app a b : split_us (a ++ "_" ++ b) = (split_us a ++ split_us b)%list.
Proof.
  induction a as [|x a IH]; [reflexivity|]. cbn [append split_us]. destruct (Ascii.eqb x "_") eqn:E.
  - change (split_us (a ++ "_" ++ b)) with (split_us (a ++ "_" ++ b)). cbn [append] in IH. rewrite IH. reflexivity.
  - cbn [append] in IH. rewrite IH. destruct (split_cons a) as (w & ws & ->). reflexivity.
Qed.
Lemma split_word k : word k -> split_us k = [k].
Proof.
  induction k as [|a k IH]; [reflexivity|]. intros (N & W). cbn [split_us]. destruct (Ascii.eqb_spec a "_"); [contradiction|]. now rewrite IH.
Qed.
Lemma split_words s : Forall word (split_us s).
Proof.
  induction s as [|a s IH]; cbn; [repeat constructor|]. destruct (Ascii.eqb_spec a "_"); [constructor; [exact I|exact IH]|].
  destruct (split_us s) as [|w ws]; [repeat constructor; assumption|]. inversion IH; subst. constructor; [split; assumption|assumption].
Qed.
Lemma last_app {A} (l m : list A) d : m <> [] -> last (l ++ m)%list d = last m d.
Proof. intros N. induction l as [|a l IH]; [reflexivity|]. cbn [app last]. destruct (l ++ m)%list eqn:X; [destruct l, m; try discriminate X; contradiction|exact IH]. Qed.
Lemma ends_last s k : ends_in s k -> last (split_us s) "" = k.
Proof.
  intros (W & a & ->). rewrite split_app, (split_word k W). now rewrite last_app by discriminate.
Qed.
Lemma last_ends s : mentions "_" s -> ends_in s (last (split_us s) "").
Proof.
  intros M. split.
  - pose proof (split_words s) as F. destruct (split_cons s) as (w & ws & E). rewrite E in *. clear - F. rewrite Forall_forall in F. apply F.
    clear F. revert w. induction ws as [|v ws IH]; intros w; [now left|]. right. exact (IH v).
  - induction s as [|c s IH]; [destruct M as (x & y & X); destruct x; discriminate X|].
    destruct (contains "_" s) eqn:C.
    + assert (M' : mentions "_" s) by (now apply contains_spec in C). destruct (IH M') as (a & A). exists (String c a).
      assert (L : last (split_us (String c s)) "" = last (split_us s) "").
      { cbn [split_us]. destruct (Ascii.eqb c "_"); [destruct (split_cons s) as (w & ws & ->); reflexivity|].
        destruct M' as (x & y & ->). rewrite split_app. destruct (split_cons x) as (w & ws & ->). destruct (split_cons y) as (w' & ws' & ->). cbn [app].
        destruct ws; reflexivity. }
      rewrite L. cbn [append]. f_equal. exact A.
    + assert (NM : ~ mentions "_" s) by (intros X; apply contains_spec in X; [congruence|discriminate]).
      assert (W : word s).
      { clear - NM. induction s as [|a s IH]; [exact I|]. split.
        - intros ->. apply NM. exists "", s. reflexivity.
        - apply IH. intros (x & y & X). apply NM. exists (String a x), y. cbn [append] in *. now rewrite X. }
      destruct M as (x & y & X). destruct x as [|d x]; cbn [append] in X; injection X as -> ->.
      * cbn [split_us]. rewrite Ascii.eqb_refl, (split_word y W). exists "". reflexivity.
      * exfalso. apply NM. exists x, y. reflexivity.
Qed.
Lemma mentions_more a b s : mentions (a ++ b) s -> mentions b s.
Proof. intros (x & y & ->). exists (x ++ a), y. now rewrite !app_assoc_s. Qed.

(** ** tables *)
Lemma lookup_set d k v k' : lookup (dict_set d k v) k' = if String.eqb k k' then Some v else lookup d k'.
Proof.
  induction d as [|(a, b) d IH]; cbn [dict_set lookup]; [reflexivity|]. destruct (String.eqb_spec a k) as [->|N]; cbn [lookup].
  - destruct (String.eqb k k'); reflexivity.
  - rewrite IH. destruct (String.eqb_spec a k') as [->|M]; [|reflexivity]. destruct (String.eqb_spec k k') as [->|]; [contradiction|reflexivity].
Qed.
Lemma set_keys d k v a : In a (map fst (dict_set d k v)) -> a = k \/ In a (map fst d).
Proof.
  induction d as [|(x, b) d IH]; cbn [dict_set]; [cbn; intuition|]. destruct (String.eqb x k); cbn [map fst In]; [auto|]. intuition.
Qed.
Lemma set_nodup d k v : NoDup (map fst d) -> NoDup (map fst (dict_set d k v)).
Proof.
  induction d as [|(x, b) d IH]; cbn [dict_set]; [repeat constructor; intros []|]. intros N. inversion N as [|? ? N1 N2]; subst.
  destruct (String.eqb_spec x k) as [->|M]; cbn [map fst]; [exact N|]. constructor; [|now apply IH]. intros X. apply set_keys in X. intuition.
Qed.
Lemma lookup_in d k x : NoDup (map fst d) -> (lookup d k = Some x <-> In (k, x) d).
Proof.
  induction d as [|(a, b) d IH]; cbn [lookup map fst]; [split; [discriminate|intros []]|]. intros N. inversion N as [|? ? N1 N2]; subst.
  destruct (String.eqb_spec a k) as [->|M].
  - split; [intros [= ->]; now left|]. intros [[= ->]|I]; [reflexivity|]. exfalso. apply N1. now apply (in_map fst) in I.
  - rewrite (IH N2). cbn [In]. split; [auto|]. intros [[= -> ->]|I]; [contradiction|exact I].
Qed.

Definition build (p : string -> bool) (key : string -> string) (opts : list (string * R)) (t : list (string * R)) : list (string * R) :=
  fold_left (fun t o => if p (fst o) then dict_set t (key (fst o)) (snd o) else t) opts t.
Lemma build_nodup p key opts : forall t, NoDup (map fst t) -> NoDup (map fst (build p key opts t)).
Proof. induction opts as [|o opts IH]; intros t N; [exact N|]. cbn. apply IH. destruct (p (fst o)); [now apply set_nodup|exact N]. Qed.
Lemma build_lookup p key k x opts : forall t, lookup (build p key opts t) k = Some x <->
  (exists pre n post, opts = (pre ++ (n, x) :: post)%list /\ p n = true /\ key n = k /\ forall n' x', In (n', x') post -> p n' = true -> key n' <> k) \/
  (lookup t k = Some x /\ forall n' x', In (n', x') opts -> p n' = true -> key n' <> k).
Proof.
  induction opts as [|(n, y) opts IH]; intros t.
  - cbn. split; [intros H; right; split; [exact H|intros ? ? []]|]. intros [(pre & m & post & X & _)|(H & _)]; [destruct pre; discriminate X|exact H].
  - cbn [build fold_left fst snd]. fold (build p key opts (if p n then dict_set t (key n) y else t)). rewrite IH. split.
    + intros [(pre & m & post & -> & P & K & F)|(L & F)].
      * left. exists ((n, y) :: pre), m, post. auto.
      * destruct (p n) eqn:P.
        -- rewrite lookup_set in L. destruct (String.eqb_spec (key n) k) as [K|K].
           ++ injection L as ->. left. exists [], n, opts. auto.
           ++ right. split; [exact L|]. intros n' x' [[= <- <-]|I]; [auto|eauto].
        -- right. split; [exact L|]. intros n' x' [[= <- <-]|I]; [congruence|eauto].
    + intros [(pre & m & post & X & P & K & F)|(L & F)].
      * destruct pre as [|o pre]; inversion X; subst.
        -- right. rewrite P, lookup_set, String.eqb_refl. auto.
        -- left. exists pre, m, post. auto.
      * right. split; [|intros n' x' I; apply (F n' x'); now right]. destruct (p n) eqn:P; [|exact L]. rewrite lookup_set.
        destruct (String.eqb_spec (key n) k) as [K|K]; [|exact L]. exfalso. exact (F n y (or_introl eq_refl) P K).
Qed.

Lemma albedo_is d opts : albedo_table d opts = build (contains (d ++ "_")) (fun n => last (split_us n) "") opts [].
Proof. reflexivity. Qed.
Lemma says_lookup t k x : NoDup (map fst t) -> (says t k x <-> lookup t k = Some x).
Proof. intros N. unfold says. rewrite lookup_in by exact N. tauto. Qed.

(** ** wind *)
Section Wind.
Context {E : Type} (to_float : E -> res R).
Notation number := (number to_float).
Definition val (v : value E) : R := match number v with Ok x => x | Err _ => 0%R end.
Lemma wind_veg_from_spec opts : forall t t', wind_veg_from E to_float t opts = Ok t' <->
  (forall k v, In (k, v) opts -> contains "veg_" k = true -> exists x, number v = Ok x) /\
  t' = build (contains "veg_") (fun n => nth 1 (split_us n) "") (map (fun o => (fst o, val (snd o))) opts) t.
Proof.
  induction opts as [|(k, v) opts IH]; intros t t'; cbn [wind_veg_from].
  - cbn. split; [intros [= <-]; split; [intros ? ? []|reflexivity]|intros (_ & ->); reflexivity].
  - cbn [map build fold_left fst snd]. fold (build (contains "veg_") (fun n => nth 1 (split_us n) "") (map (fun o => (fst o, val (snd o))) opts)).
    destruct (contains "veg_" k) eqn:C.
    + destruct (number v) as [x|e] eqn:N; cbn [bind].
      * assert (V : val v = x) by (unfold val; now rewrite N). rewrite IH, V. split.
        -- intros (A & B). split; [|exact B]. intros k' v' [[= <- <-]|I] C'; [eauto|eauto].
        -- intros (A & B). split; [|exact B]. intros k' v' I. apply A. now right.
      * split; [discriminate|]. intros (A & _). destruct (A k v (or_introl eq_refl) C) as (x & X). congruence.
    + rewrite IH. split.
      * intros (A & B). split; [|exact B]. intros k' v' [[= <- <-]|I] C'; [congruence|eauto].
      * intros (A & B). split; [|exact B]. intros k' v' I. apply A. now right.
Qed.

Lemma option_of_in opts k v : section opts -> (option_of (E:=E) opts k = Some v <-> In (k, v) opts).
Proof.
  unfold section. induction opts as [|(a, b) d IH]; cbn [option_of map fst]; [split; [discriminate|intros []]|]. intros N. inversion N as [|? ? N1 N2]; subst.
  destruct (String.eqb_spec a k) as [->|M].
  - split; [intros [= ->]; now left|]. intros [[= ->]|I]; [reflexivity|]. exfalso. apply N1. now apply (in_map fst) in I.
  - rewrite (IH N2). cbn [In]. split; [auto|]. intros [[= -> ->]|I]; [contradiction|exact I].
Qed.
Lemma option_of_none opts k : option_of (E:=E) opts k = None <-> ~ In k (map fst opts).
Proof.
  induction opts as [|(a, b) d IH]; cbn [option_of map fst In]; [intuition|]. destruct (String.eqb_spec a k) as [->|M]; [|rewrite IH; intuition].
  split; [discriminate|]. intuition.
Qed.
End Wind.

Lemma veg_keys_spec l r : veg_keys l = Ok r <-> Forall2 (fun p q => py_int (fst p) = Some (fst q) /\ snd p = snd q) l r.
Proof.
  revert r. induction l as [|(k, x) l IH]; intros r; cbn [veg_keys].
  - split; [intros [= <-]; constructor|]. intros F. inversion F; reflexivity.
  - destruct (py_int k) as [z|] eqn:P.
    + destruct (veg_keys l) as [m|e]; cbn [bind].
      * split.
        -- intros [= <-]. constructor; [auto|]. now apply IH.
        -- intros F. inversion F as [|? (z', x') ? ? (A & B) G]; subst. cbn in A, B. apply IH in G. congruence.
      * split; [discriminate|]. intros F. inversion F as [|? ? ? ? ? G]; subst. apply IH in G. discriminate G.
    + split; [discriminate|]. intros F. inversion F as [|? ? ? ? (A & _)]; subst. cbn in A. congruence.
Qed.
Lemma ends_of a k k' : word k -> ends_in (a ++ "_" ++ k) k' -> k' = k.
Proof.
  intros W X. apply ends_last in X. rewrite <- X. apply ends_last. split; [exact W|now exists a].
Qed.
