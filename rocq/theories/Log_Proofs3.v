From Verif Require Import Base Str_Model Str_Spec Str_Proofs Misc_Model Log_Model Log_Spec Log_Proofs Data_Proofs2.
Require Import Ascii.
Open Scope string_scope.
Open Scope list_scope.
Open Scope nat_scope.

(** deciding [contains] *)
Fixpoint hasb (sub s : string) : bool := String.prefix sub s || match s with "" => false | String _ s' => hasb sub s' end.
Lemma hasb_contains sub s : contains sub s -> hasb sub s = true.
Proof.
  intros (a & b & ->). induction a as [|c a IH].
  - simpl append. destruct (sub ++ b)%string eqn:E; cbn [hasb]; rewrite <- E, prefix_self; reflexivity.
  - simpl append. cbn [hasb]. rewrite IH. apply orb_true_r.
Qed.
Lemma hasb_false sub s : hasb sub s = false -> ~ contains sub s.
Proof. intros H C. apply hasb_contains in C. congruence. Qed.

(** * replace *)
Fixpoint rep (old new : string) (skip : nat) (s : string) : string :=
  match s with
  | "" => ""
  | String c s' =>
    match skip with
    | S k => rep old new k s'
    | O => if String.prefix old s then (new ++ rep old new (String.length old - 1) s')%string else String c (rep old new 0 s')
    end
  end.
Lemma rep_cons old new c s : rep old new 0 (String c s) = if String.prefix old (String c s) then (new ++ rep old new (String.length old - 1) s)%string else String c (rep old new 0 s).
Proof. reflexivity. Qed.
Lemma join_split_rep old new : forall s k, join new (split_go old k s) = rep old new k s.
Proof.
  induction s as [|c s IH]; intros k; [reflexivity|]. cbn [split_go rep]. destruct k as [|k]; [|apply IH].
  destruct (String.prefix old (String c s)).
  - rewrite join_cons by apply split_nonempty. rewrite IH. reflexivity.
  - rewrite <- IH. destruct (split_go old 0 s) as [|h t] eqn:E; [exfalso; exact (split_nonempty _ _ _ E)|]. destruct t; [reflexivity|].
    rewrite !join_cons by discriminate. reflexivity.
Qed.
Lemma replace_rep old new s : replace old new s = rep old new 0 s.
Proof. apply join_split_rep. Qed.
Lemma rep_char c : forall s, rep (String c "") (String c "") 0 s = s.
Proof.
  induction s as [|d s IH]; [reflexivity|]. cbn [rep]. destruct (String.prefix (String c "") (String d s)) eqn:P.
  - apply prefix_cons in P. destruct P as (<- & _). simpl. f_equal. exact IH.
  - f_equal. exact IH.
Qed.
Lemma join_split c s : join (String c "") (split (String c "") s) = s.
Proof. unfold split. rewrite join_split_rep. apply rep_char. Qed.
Lemma prefix_length p : forall s, String.prefix p s = true -> String.length p <= String.length s.
Proof.
  induction p as [|a p IH]; intros s H; [simpl; lia|]. destruct s as [|b s]; [discriminate|]. apply prefix_cons in H. destruct H as (_ & H). apply IH in H. simpl. lia.
Qed.
Lemma prefix_app p x d w : ~ contains (String d "") p -> String.prefix p (x ++ String d w) = String.prefix p x.
Proof.
  revert x. induction p as [|a p IH]; intros x N; [destruct x; reflexivity|]. destruct x as [|b x]; simpl.
  - destruct (ascii_dec a d); [|reflexivity]. subst. exfalso. apply N. exists "", p. reflexivity.
  - destruct (ascii_dec a b); [|reflexivity]. apply IH. intros C. apply N, contains_cons, C.
Qed.
Lemma rep_app old new d w : old <> "" -> ~ contains (String d "") old -> forall u k, k <= String.length u ->
  rep old new k (u ++ String d w) = (rep old new k u ++ String d (rep old new 0 w))%string.
Proof.
  intros O N. induction u as [|c u IH]; intros k K.
  - simpl in K. assert (k = 0) by lia. subst k. simpl append. cbn [rep].
    assert (P : String.prefix old (String d w) = false). { rewrite (prefix_app old "" d w N : String.prefix old (String d w) = _). destruct old; [congruence|reflexivity]. }
    rewrite P. reflexivity.
  - change (String c u ++ String d w)%string with (String c (u ++ String d w)). destruct k as [|k]; [|cbn [rep]; apply IH; simpl in K; lia].
    rewrite !rep_cons. change (String.prefix old (String c (u ++ String d w))) with (String.prefix old (String c u ++ String d w)). rewrite (prefix_app old (String c u) d w N).
    destruct (String.prefix old (String c u)) eqn:P.
    + apply prefix_length in P. cbn [String.length] in P. rewrite IH by lia. rewrite append_assoc. reflexivity.
    + rewrite IH by lia. reflexivity.
Qed.
Lemma rep_none old new s : ~ contains old s -> rep old new 0 s = s.
Proof.
  induction s as [|c s IH]; intros N; [reflexivity|]. cbn [rep]. destruct (String.prefix old (String c s)) eqn:P.
  - exfalso. apply N, prefix_contains, P.
  - f_equal. apply IH. intros C. apply N, contains_cons, C.
Qed.
(** text without the first character of the pattern is passed over *)
Lemma rep_skip c o new x r : ~ contains (String c "") x -> rep (String c o) new 0 (x ++ r) = (x ++ rep (String c o) new 0 r)%string.
Proof.
  induction x as [|d x IH]; intros N; [reflexivity|]. simpl append. cbn [rep]. destruct (String.prefix (String c o) (String d (x ++ r))) eqn:P.
  - apply prefix_cons in P. destruct P as (<- & _). exfalso. apply N. exists "", x. reflexivity.
  - f_equal. apply IH. intros C. apply N, contains_cons, C.
Qed.
Lemma rep_drop p new o r : rep p new (String.length o) (o ++ r) = rep p new 0 r.
Proof. induction o as [|a o IH]; [destruct r; reflexivity|]. simpl. exact IH. Qed.
Lemma split_drop p o r : split_go p (String.length o) (o ++ r) = split_go p 0 r.
Proof. induction o as [|a o IH]; [destruct r; reflexivity|]. simpl. exact IH. Qed.
Lemma rep_hit old new r : old <> "" -> rep old new 0 (old ++ r) = (new ++ rep old new 0 r)%string.
Proof.
  intros O. destruct old as [|c o]; [congruence|]. change (String c o ++ r)%string with (String c (o ++ r)). cbn [rep].
  rewrite (prefix_self (String c o) r : String.prefix (String c o) (String c (o ++ r)) = true). f_equal.
  simpl String.length. cbn [Nat.sub]. rewrite Nat.sub_0_r. apply rep_drop.
Qed.
(** double commas *)
Lemma rep_cc_comma r : ~ String.prefix "," r = true -> rep ",," "," 0 (String "," r) = String "," (rep ",," "," 0 r).
Proof.
  intros N. cbn [rep]. destruct (String.prefix ",," (String "," r)) eqn:P; [|reflexivity]. apply prefix_cons in P. destruct P as (_ & P). congruence.
Qed.
Lemma rep_cc_starts r : exists y, rep ",," "," 0 (String "," r) = String "," y.
Proof. cbn [rep]. destruct (String.prefix ",," (String "," r)); eexists; reflexivity. Qed.
Lemma rep_cc_ends : forall u, (exists x, rep ",," "," 0 (u ++ ",") = (x ++ ",")%string) /\ (forall c u', u = String c u' -> (exists x, ("," ++ rep ",," "," 1 (u ++ ","))%string = (x ++ ",")%string)).
Proof.
  induction u as [|c u (IH0 & IH1)].
  - split; [exists ""; reflexivity|]. discriminate.
  - split.
    + simpl append. cbn [rep]. destruct (String.prefix ",," (String c (u ++ ","))) eqn:P.
      * simpl String.length. cbn [Nat.sub]. destruct u as [|a u]; [exists ""; reflexivity|]. eapply IH1. reflexivity.
      * destruct IH0 as (x & ->). exists (String c x). reflexivity.
    + intros d u' E. injection E as -> ->. simpl append. cbn [rep]. destruct IH0 as (x & ->). exists (String "," x). reflexivity.
Qed.

(** * splitting *)
Lemma split_mid c : forall a b, split (String c "") (a ++ String c b) = split (String c "") a ++ split (String c "") b.
Proof.
  intros a b. unfold split. induction a as [|d a IH].
  - simpl. destruct (ascii_dec c c); [|congruence]. destruct b; reflexivity.
  - simpl append. cbn [split_go].
    assert (Pe : String.prefix (String c "") (String d (a ++ String c b)) = String.prefix (String c "") (String d a)).
    { simpl. destruct (ascii_dec c d); [destruct (a ++ String c b)%string, a; reflexivity|reflexivity]. }
    rewrite Pe. destruct (String.prefix (String c "") (String d a)).
    + simpl String.length. cbn [Nat.sub]. rewrite IH. reflexivity.
    + rewrite IH. destruct (split_go (String c "") 0 a) as [|h t] eqn:E; [exfalso; exact (split_nonempty _ _ _ E)|]. reflexivity.
Qed.
Lemma split_last c a b : ~ contains (String c "") b -> split (String c "") (a ++ String c b) = split (String c "") a ++ [b].
Proof. intros N. rewrite split_mid, (split_none (String c "") b N). reflexivity. Qed.
Lemma before_last_app c a b : ~ contains (String c "") b -> before_last (String c "") (a ++ String c b) = a.
Proof.
  intros N. unfold before_last. rewrite (split_last _ _ _ N). destruct (split (String c "") a) as [|h t] eqn:E; [exfalso; exact (split_nonempty _ _ _ E)|].
  assert (R : match (h :: t) ++ [b] with [x] => [x] | l => removelast l end = h :: t).
  { change ((h :: t) ++ [b]) with (h :: (t ++ [b])). destruct (t ++ [b]) as [|y l] eqn:F; [destruct t; discriminate|].
    rewrite <- F. change (h :: t ++ [b]) with ((h :: t) ++ [b]). apply removelast_last. }
  rewrite R, <- E. apply join_split.
Qed.
(** the general separator: its first occurrence *)
Fixpoint init_str (s : string) : string := match s with "" => "" | String c "" => "" | String c s' => String c (init_str s') end.
Lemma prefix_take p : forall x y, String.prefix p (x ++ y) = true -> String.length p <= String.length x -> String.prefix p x = true.
Proof.
  induction p as [|a p IH]; intros x y H L; [destruct x; reflexivity|]. destruct x as [|b x]; [simpl in L; lia|]. simpl in H |- *. destruct (ascii_dec a b); [|discriminate]. eapply IH; eauto. simpl in L. lia.
Qed.
Lemma init_len s : String.length (init_str s) = String.length s - 1.
Proof. induction s as [|c s IH]; [reflexivity|]. destruct s; [reflexivity|]. cbn [init_str String.length] in *. rewrite IH. simpl. lia. Qed.
Lemma init_app s : s <> "" -> exists c, s = (init_str s ++ String c "")%string.
Proof.
  induction s as [|c s IH]; intros N; [congruence|]. destruct s as [|d s]; [exists c; reflexivity|]. destruct IH as (e & E); [discriminate|]. exists e. cbn [init_str]. simpl append. f_equal. exact E.
Qed.
Lemma len_append a b : String.length (a ++ b) = String.length a + String.length b.
Proof. induction a; simpl; auto. Qed.
Lemma split_at sep x r : sep <> "" -> ~ contains sep (x ++ init_str sep) -> split sep (x ++ sep ++ r) = x :: split sep r.
Proof.
  intros O. unfold split. induction x as [|b x IH]; intros H.
  - simpl append. destruct sep as [|c sep]; [congruence|]. change (String c sep ++ r)%string with (String c (sep ++ r)). cbn [split_go].
    rewrite (prefix_self (String c sep) r : String.prefix (String c sep) (String c (sep ++ r)) = true). f_equal.
    simpl String.length. cbn [Nat.sub]. rewrite Nat.sub_0_r. apply split_drop.
  - simpl append. cbn [split_go]. destruct (String.prefix sep (String b (x ++ sep ++ r))) eqn:P.
    + exfalso. apply H. apply prefix_contains. destruct (init_app sep O) as (e & E). rewrite E in P at 2.
      apply (prefix_take sep (String b x ++ init_str sep) (String e "" ++ r)).
      * rewrite append_assoc. simpl append. rewrite append_assoc in P. simpl append in P. exact P.
      * rewrite len_append, init_len. simpl. lia.
    + rewrite IH; [reflexivity|]. intros C. apply H. simpl. apply contains_cons, C.
Qed.
Lemma plain_app c x y : ~ contains (String c "") x -> ~ contains (String c "") y -> ~ contains (String c "") (x ++ y).
Proof. intros A B C. apply contains_app_char in C. tauto. Qed.

(** * INIT lines *)
Lemma after_paren_init stamp cls rest : ~ contains "(" stamp -> ~ contains "(" cls ->
  after_paren ("[" ++ stamp ++ " - gama.gama] INIT:" ++ cls ++ "(" ++ rest) = rest.
Proof.
  intros A B. unfold after_paren.
  replace ("[" ++ stamp ++ " - gama.gama] INIT:" ++ cls ++ "(" ++ rest)%string with (("[" ++ stamp ++ " - gama.gama] INIT:" ++ cls) ++ String "(" rest)%string by (rewrite !append_assoc; reflexivity).
  assert (N : ~ contains "(" ("[" ++ stamp ++ " - gama.gama] INIT:" ++ cls)).
  { apply plain_app; [intros C; apply contains_char in C; discriminate|]. apply plain_app; [exact A|]. apply plain_app; [|exact B].
    apply hasb_false. reflexivity. }
  generalize dependent ("[" ++ stamp ++ " - gama.gama] INIT:" ++ cls)%string. intros x N.
  assert (E : after_first "(" (x ++ String "(" rest) = Some rest); [|rewrite E; reflexivity].
  induction x as [|d x IH]; [destruct rest; reflexivity|].
  simpl append. cbn [after_first]. destruct (String.prefix "(" (String d (x ++ String "(" rest))) eqn:P.
  - apply prefix_cons in P. destruct P as (<- & _). exfalso. apply N. exists "", x. reflexivity.
  - apply IH. intros C. apply N, contains_cons, C.
Qed.
Definition processed (args : string) : string := rep ",," "," 0 (rep ")" "," 0 (rep "(" "," 0 (rep "()" "," 0 args))).
Lemma init_to_hps_args stamp cls args : ~ contains "(" stamp -> ~ contains "(" cls ->
  init_to_hps ("[" ++ stamp ++ " - gama.gama] INIT:" ++ cls ++ "(" ++ args ++ ")" ++ nl) =
  rmap (fun hp => match split "=" hp with [k; v] => Ok (k, v) | _ => Err ValueError end) (split "," (processed args)).
Proof.
  intros A B. unfold init_to_hps. rewrite (after_paren_init _ _ _ A B).
  change (args ++ ")" ++ nl)%string with (args ++ String ")" nl)%string. rewrite (before_last_app ")" args nl) by (apply hasb_false; reflexivity).
  rewrite !replace_rep. reflexivity.
Qed.
(** pieces "name=value", each perhaps followed by something more *)
Definition piece := (string * string * bool)%type.
Definition good_piece (a : piece) : Prop := let '(k, v, _) := a in plain k /\ plain v.
Definition piece_value (a : piece) : string * string := let '(k, v, _) := a in (k, v).
Fixpoint items (sfx : string) (l : list piece) : string :=
  match l with
  | [] => ""
  | (k, v, call) :: r =>
    let x := (k ++ "=" ++ v ++ (if call then sfx else ""))%string in
    match r with [] => x | _ => (x ++ "," ++ items sfx r)%string end
  end.
Definition pl c (l : list piece) : Prop := Forall (fun a => let '(k, v, _) := a in ~ contains (String c "") k /\ ~ contains (String c "") v) l.
Lemma eq_char c : c <> "="%char -> ~ contains (String c "") "=".
Proof. intros H C. apply contains_char in C. congruence. Qed.
Lemma item_plain c (k v : string) : c <> "="%char -> ~ contains (String c "") k -> ~ contains (String c "") v -> ~ contains (String c "") (k ++ "=" ++ v).
Proof. intros H A B. apply plain_app; auto. apply plain_app; auto. apply eq_char. exact H. Qed.
Lemma items_head l : pl "," l -> l <> [] -> String.prefix "," (items "," l) = false.
Proof.
  destruct l as [|[[k v] call] l]; intros P N; [congruence|]. pose proof (Forall_inv P) as AB; pose proof (Forall_inv_tail P) as P'; cbv beta iota in AB; destruct AB as (A & B). cbn [items].
  assert (H : forall t, String.prefix "," (k ++ "=" ++ t) = false).
  { intros t. destruct k as [|c k]; [reflexivity|]. simpl append. destruct (String.prefix "," (String c (k ++ String "=" t))) eqn:Q; auto.
    apply prefix_cons in Q. destruct Q as (<- & _). exfalso. apply A. exists "", k. reflexivity. }
  destruct l; rewrite ?append_assoc; apply H.
Qed.
Definition last_plain (l : list piece) : Prop := match last l ("", "", false) with (_, _, call) => call = false end.
Lemma items_double l : pl "," l -> last_plain l -> rep ",," "," 0 (items "," l) = items "" l.
Proof.
  induction l as [|[[k v] call] l IH]; intros P L; [reflexivity|]. pose proof (Forall_inv P) as AB; pose proof (Forall_inv_tail P) as P'; cbv beta iota in AB; destruct AB as (A & B).
  assert (I : ~ contains "," (k ++ "=" ++ v)) by (apply (item_plain ","); auto; discriminate).
  destruct l as [|a l].
  - unfold last_plain in L. simpl in L. subst call. cbn [items]. rewrite append_nil_r.
    rewrite <- (append_nil_r (k ++ "=" ++ v)) at 1. rewrite (rep_skip "," "," "," _ _ I). simpl. rewrite append_nil_r. reflexivity.
  - assert (L' : last_plain (a :: l)) by exact L. specialize (IH P' L').
    assert (Hd : String.prefix "," (items "," (a :: l)) = false) by (apply items_head; [exact P'|discriminate]).
    remember (a :: l) as l'. assert (Hl : l' <> []) by (subst; discriminate).
    assert (Ei : forall s, items s ((k, v, call) :: l') = ((k ++ "=" ++ v) ++ (if call then s else "") ++ "," ++ items s l')%string).
    { intros s. cbn [items]. destruct l'; [congruence|]. rewrite !append_assoc. reflexivity. }
    rewrite !Ei, (rep_skip "," "," "," _ _ I). f_equal. destruct call.
    + change ("," ++ "," ++ items "," l')%string with (",," ++ items "," l')%string. rewrite (rep_hit ",," "," _) by discriminate. rewrite IH. reflexivity.
    + simpl append. rewrite rep_cc_comma by congruence. rewrite IH. reflexivity.
Qed.
Lemma items_split l : Forall good_piece l -> l <> [] -> split "," (items "" l) = map (fun a => let '(k, v, _) := a in (k ++ "=" ++ v)%string) l.
Proof.
  intros G N. induction G as [|[[k v] call] l (A & B) G IH]; [congruence|].
  assert (I : ~ contains "," (k ++ "=" ++ v)) by (apply (item_plain ","); [discriminate| |]; [apply A|apply B]).
  destruct l as [|a l].
  - cbn [items map]. replace (k ++ "=" ++ v ++ (if call then "" else ""))%string with (k ++ "=" ++ v)%string by (destruct call; rewrite append_nil_r; reflexivity).
    apply split_none. exact I.
  - cbn [map]. cbn [map] in IH. rewrite <- (IH ltac:(discriminate)).
    assert (E : items "" ((k, v, call) :: a :: l) = ((k ++ "=" ++ v) ++ String "," (items "" (a :: l)))%string).
    { cbn [items]. destruct call; rewrite !append_assoc; reflexivity. }
    etransitivity; [exact (f_equal (split ",") E)|]. apply split_char. exact I.
Qed.
Lemma pieces_plain l : Forall good_piece l -> l <> [] ->
  rmap (fun hp => match split "=" hp with [k; v] => Ok (k, v) | _ => Err ValueError end) (split "," (items "" l)) = Ok (map piece_value l).
Proof.
  intros G N. rewrite (items_split _ G N). clear N. induction G as [|[[k v] call] l (A & B) G IH]; [reflexivity|]. cbn [map rmap].
  assert (S : split "=" (k ++ "=" ++ v) = [k; v]).
  { change (k ++ "=" ++ v)%string with (k ++ String "=" v)%string. rewrite split_char by apply A. rewrite split_none by apply B. reflexivity. }
  rewrite S. cbn [rbind]. rewrite IH. reflexivity.
Qed.
Lemma good_pl c l : Forall good_piece l -> In c ["("%char; ")"%char; ","%char; "="%char] -> pl c l.
Proof.
  intros G I. eapply Forall_impl; [|exact G]. intros [[k v] call] (A & B). simpl in I. destruct I as [<- | [<- | [<- | [<- | []]]]]; split; [apply A|apply B|apply A|apply B|apply A|apply B|apply A|apply B].
Qed.
(** the arguments as pieces: after the last one of an object, the text goes on *)
Fixpoint flagged (l : list (string * string)) : list piece :=
  match l with [] => [] | [(k, v)] => [(k, v, true)] | (k, v) :: r => (k, v, false) :: flagged r end.
Definition pieces (a : argument) : list piece :=
  match a with Text k v => [(k, v, false)] | Object k c h => flagged ((k, c) :: set_values h) end.
Lemma flagged_values l : map piece_value (flagged l) = l.
Proof. induction l as [|[k v] l IH]; [reflexivity|]. destruct l; [reflexivity|]. change (flagged ((k, v) :: p :: l)) with ((k, v, false) :: flagged (p :: l)). cbn [map]. rewrite IH. reflexivity. Qed.
Lemma pieces_values a : map piece_value (pieces a) = arg_values a.
Proof. destruct a; [reflexivity|]. apply flagged_values. Qed.
Lemma good_values l : Forall (fun p => plain (fst p) /\ plain (snd p)) (map piece_value l) -> Forall good_piece l.
Proof. induction l as [|[[k v] b] l IH]; intros H; constructor; inversion H; subst; auto. Qed.
(** one character *)
Lemma rep1_app c new : forall a b, rep (String c "") new 0 (a ++ b) = (rep (String c "") new 0 a ++ rep (String c "") new 0 b)%string.
Proof.
  induction a as [|d a IH]; intros b; [reflexivity|]. change (String d a ++ b)%string with (String d (a ++ b)). rewrite !rep_cons. simpl String.length. simpl Nat.sub. rewrite IH.
  assert (P : forall x y, String.prefix (String c "") (String d x) = String.prefix (String c "") (String d y)) by (intros x y; simpl; destruct (ascii_dec c d); [destruct x, y|]; reflexivity).
  rewrite (P (a ++ b)%string a). destruct (String.prefix (String c "") (String d a)); [rewrite append_assoc|]; reflexivity.
Qed.
(** the text, with given signs around hyperparameters and after an object without *)
Definition setting (p : string * string) : string := (fst p ++ "=" ++ snd p)%string.
Definition arg_build (o c e : string) (a : argument) : string :=
  match a with
  | Text k v => setting (k, v)
  | Object k v h => (setting (k, v) ++ match set_values h with [] => e | l => o ++ join "," (map setting l) ++ c end)%string
  end.
Definition build (o c e : string) (l : list argument) : string := join "," (map (arg_build o c e) l).
Lemma sets_text h : flat_map (fun p : string * option string => match snd p with Some v => [(fst p ++ "=" ++ v)%string] | None => [] end) h = map setting (set_values h).
Proof. unfold set_values. induction h as [|[k [v|]] h IH]; [reflexivity| |]; cbn [flat_map snd fst app map]; rewrite IH; reflexivity. Qed.
Lemma build_text l : join "," (map (fun p => fst p ++ "=" ++ snd p)%string (map arg_text l)) = build "(" ")" "()" l.
Proof.
  unfold build. rewrite map_map. f_equal. apply map_ext. intros [k v|k v h]; [reflexivity|]. cbn [arg_text fst snd arg_build]. unfold config_str, setting at 1. cbn [fst snd]. rewrite sets_text.
  rewrite !append_assoc. do 3 f_equal. destruct (set_values h); reflexivity.
Qed.
Definition no c (s : string) : Prop := ~ contains (String c "") s.
Lemma no_join c l : c <> ","%char -> Forall (no c) l -> no c (join "," l).
Proof.
  intros N F. induction F as [|x l H F IH]; [apply not_contains_nil|]. destruct l as [|y l]; [simpl; exact H|]. rewrite join_cons by discriminate. apply plain_app; [exact H|].
  apply plain_app; auto. intros K. apply contains_char in K. congruence.
Qed.
Lemma no_settings c l : c <> ","%char -> c <> "="%char -> Forall (fun p => no c (fst p) /\ no c (snd p)) l -> no c (join "," (map setting l)).
Proof.
  intros N1 N2 F. apply no_join; auto. apply Forall_map. eapply Forall_impl; [|exact F]. intros [k v] [A B]. unfold setting. apply item_plain; auto.
Qed.
Lemma plain_no p : plain p -> no "(" p /\ no ")" p /\ no "," p.
Proof. intros (A & B & C & _). split; [|split]; assumption. Qed.
Lemma rep1_arg x new a o c e o' c' e' : x <> ","%char -> x <> "="%char -> Forall (fun p => no x (fst p) /\ no x (snd p)) (arg_values a) ->
  rep (String x "") new 0 o = o' -> rep (String x "") new 0 c = c' -> rep (String x "") new 0 e = e' ->
  rep (String x "") new 0 (arg_build o c e a) = arg_build o' c' e' a.
Proof.
  intros N1 N2 F O C E. destruct a as [k v|k v h]; cbn [arg_values] in F; pose proof (Forall_inv F) as [A B]; cbn [fst snd] in A, B.
  - cbn [arg_build]. apply rep_none. unfold setting. apply item_plain; auto.
  - cbn [arg_build]. rewrite rep1_app. rewrite (rep_none _ _ (setting (k, v))) by (unfold setting; apply item_plain; auto). f_equal.
    pose proof (Forall_inv_tail F) as F'. destruct (set_values h) as [|p l]; [exact E|]. rewrite !rep1_app, O, C. do 2 f_equal. apply rep_none. apply no_settings; auto.
Qed.
Lemma rep1_build x new l o c e o' c' e' : x <> ","%char -> x <> "="%char -> Forall (fun a => Forall (fun p => no x (fst p) /\ no x (snd p)) (arg_values a)) l ->
  rep (String x "") new 0 o = o' -> rep (String x "") new 0 c = c' -> rep (String x "") new 0 e = e' ->
  rep (String x "") new 0 (build o c e l) = build o' c' e' l.
Proof.
  intros N1 N2 F O C E. unfold build. induction F as [|a l Fa F IH]; [reflexivity|]. cbn [map]. destruct l as [|b l].
  - cbn [map join]. simpl. eapply rep1_arg; eauto.
  - cbn [map] in *. rewrite !join_cons by discriminate. rewrite !rep1_app, IH, (rep1_arg x new a o c e o' c' e') by auto.
    rewrite (rep_none _ _ ",") by (intros K; apply contains_char in K; congruence). reflexivity.
Qed.
Lemma rep_two c d new e r : e <> d -> rep (String c (String d "")) new 0 (String c (String e r)) = String c (rep (String c (String d "")) new 0 (String e r)).
Proof. intros N. rewrite rep_cons. simpl String.prefix. destruct (ascii_dec c c); [|congruence]. destruct (ascii_dec d e); [congruence|]. reflexivity. Qed.
Lemma setting_head k v t : no ")" k -> exists e r, (setting (k, v) ++ t)%string = String e r /\ e <> ")"%char.
Proof.
  intros N. unfold setting. cbn [fst snd]. destruct k as [|c k]; [exists "="%char; eexists; split; [reflexivity|discriminate]|].
  exists c; eexists; split; [reflexivity|]. intros ->. apply N. exists "", k. reflexivity.
Qed.
Lemma rep2_arg a tail : plain_arg a -> rep "()" "," 0 (arg_build "(" ")" "()" a ++ tail) = (arg_build "(" ")" "," a ++ rep "()" "," 0 tail)%string.
Proof.
  intros F. unfold plain_arg in F. destruct a as [k v|k v h]; cbn [arg_values] in F; pose proof (Forall_inv F) as [A B]; cbn [fst snd] in A, B; apply plain_no in A as (A1 & A2 & _), B as (B1 & B2 & _).
  - cbn [arg_build]. rewrite (rep_skip "(" ")" "," _ _); [reflexivity|]. unfold setting. apply (item_plain "("); auto. discriminate.
  - cbn [arg_build]. rewrite !append_assoc. rewrite (rep_skip "(" ")" "," _ _) by (unfold setting; apply (item_plain "("); auto; discriminate). f_equal.
    pose proof (Forall_inv_tail F) as F'. destruct (set_values h) as [|[k1 v1] l].
    + rewrite (rep_hit "()" "," tail) by discriminate. reflexivity.
    + assert (NS : no "(" (join "," (map setting ((k1, v1) :: l)))).
      { apply no_settings; try discriminate. eapply Forall_impl; [|exact F']. intros p [P Q]. split; [apply P|apply Q]. }
      pose proof (Forall_inv F') as [P _]. cbn [fst] in P. apply plain_no in P as (_ & P & _).
      assert (HD : exists e r, (join "," (map setting ((k1, v1) :: l)) ++ ")" ++ tail)%string = String e r /\ e <> ")"%char).
      { cbn [map]. destruct l as [|p l]; [apply (setting_head k1 v1 _ P)|]. cbn [map]. rewrite join_cons by discriminate. rewrite !append_assoc. apply setting_head. exact P. }
      destruct HD as (e & r & HD & NE). rewrite !append_assoc. change ("(" ++ join "," (map setting ((k1, v1) :: l)) ++ ")" ++ tail)%string with (String "(" (join "," (map setting ((k1, v1) :: l)) ++ ")" ++ tail)).
      rewrite HD, rep_two by exact NE. rewrite <- HD. rewrite (rep_skip "(" ")" "," _ _ NS). rewrite (rep_skip "(" ")" "," ")" tail) by (apply hasb_false; reflexivity). reflexivity.
Qed.
Lemma rep2_build l : Forall plain_arg l -> rep "()" "," 0 (build "(" ")" "()" l) = build "(" ")" "," l.
Proof.
  intros F. unfold build. induction F as [|a l Fa F IH]; [reflexivity|]. cbn [map]. destruct l as [|b l].
  - cbn [map join]. rewrite <- (append_nil_r (arg_build "(" ")" "()" a)). rewrite rep2_arg by exact Fa. simpl. apply append_nil_r.
  - cbn [map] in *. rewrite !join_cons by discriminate. rewrite rep2_arg by exact Fa. rewrite (rep_skip "(" ")" "," "," _) by (apply hasb_false; reflexivity). rewrite IH. reflexivity.
Qed.
Lemma items_flagged l p r : l <> [] -> items "," (flagged l ++ p :: r) = (join "," (map setting l) ++ "," ++ "," ++ items "," (p :: r))%string.
Proof.
  intros N. induction l as [|[k v] l IH]; [congruence|]. destruct l as [|q l].
  - cbn [flagged app map join]. destruct p as [[k2 v2] b2]. change (items "," ((k, v, true) :: (k2, v2, b2) :: r)) with ((k ++ "=" ++ v ++ ",") ++ "," ++ items "," ((k2, v2, b2) :: r))%string.
    unfold setting. cbn [fst snd]. simpl String.concat. rewrite !append_assoc. reflexivity.
  - change (flagged ((k, v) :: q :: l)) with ((k, v, false) :: flagged (q :: l)). cbn [app].
    assert (X : exists f fs, flagged (q :: l) ++ p :: r = f :: fs) by (destruct q; destruct l; simpl; eauto). destruct X as (f & fs & X).
    assert (Y : items "," ((k, v, false) :: flagged (q :: l) ++ p :: r) = (setting (k, v) ++ "," ++ items "," (flagged (q :: l) ++ p :: r))%string).
    { rewrite X. unfold setting. cbn [fst snd items]. rewrite append_nil_r, !append_assoc. reflexivity. }
    etransitivity; [exact Y|]. rewrite IH by discriminate. cbn [map]. rewrite (join_cons "," (setting (k, v))) by discriminate. rewrite !append_assoc. reflexivity.
Qed.
Lemma items_flagged_end l : l <> [] -> items "," (flagged l) = (join "," (map setting l) ++ ",")%string.
Proof.
  intros N. induction l as [|[k v] l IH]; [congruence|]. destruct l as [|q l].
  - cbn [flagged map join items]. unfold setting. cbn [fst snd]. simpl String.concat. rewrite !append_assoc. reflexivity.
  - change (flagged ((k, v) :: q :: l)) with ((k, v, false) :: flagged (q :: l)).
    assert (X : exists f fs, flagged (q :: l) = f :: fs) by (destruct q; destruct l; simpl; eauto). destruct X as (f & fs & X).
    assert (Y : items "," ((k, v, false) :: flagged (q :: l)) = (setting (k, v) ++ "," ++ items "," (flagged (q :: l)))%string).
    { rewrite X. unfold setting. cbn [fst snd items]. rewrite append_nil_r, !append_assoc. reflexivity. }
    etransitivity; [exact Y|]. rewrite IH by discriminate. cbn [map]. rewrite (join_cons "," (setting (k, v))) by discriminate. rewrite !append_assoc. reflexivity.
Qed.
Lemma arg_build_join a : exists b, arg_build "," "," "," a = (join "," (map setting (arg_values a)) ++ (if b : bool then "," else ""))%string /\
  (forall p r, items "," (pieces a ++ p :: r) = (arg_build "," "," "," a ++ "," ++ items "," (p :: r))%string) /\ items "," (pieces a) = arg_build "," "," "," a.
Proof.
  destruct a as [k v|k v h].
  - exists false. cbn [arg_build arg_values map pieces join]. simpl String.concat. rewrite append_nil_r. split; [reflexivity|]. split; [|unfold setting; simpl; rewrite append_nil_r; reflexivity].
    intros [[k2 v2] b2] r. cbn [app]. change (items "," ((k, v, false) :: (k2, v2, b2) :: r)) with ((k ++ "=" ++ v ++ "") ++ "," ++ items "," ((k2, v2, b2) :: r))%string. rewrite append_nil_r. reflexivity.
  - exists true. assert (E : arg_build "," "," "," (Object k v h) = (join "," (map setting (arg_values (Object k v h))) ++ ",")%string).
    { cbn [arg_build arg_values map]. destruct (set_values h) as [|p l]; [reflexivity|]. cbn [map]. rewrite (join_cons "," (setting (k, v))) by discriminate. rewrite !append_assoc. reflexivity. }
    split; [exact E|]. split.
    + intros p r. rewrite E. cbn [pieces arg_values]. rewrite items_flagged by discriminate. rewrite !append_assoc. reflexivity.
    + rewrite E. apply items_flagged_end. discriminate.
Qed.
Lemma build_items l : build "," "," "," l = items "," (flat_map pieces l).
Proof.
  unfold build. induction l as [|a l IH]; [reflexivity|]. cbn [map flat_map]. destruct (arg_build_join a) as (_ & _ & J & K). destruct l as [|b l].
  - cbn [map join flat_map]. rewrite app_nil_r. simpl String.concat. symmetry. exact K.
  - cbn [map] in *. rewrite join_cons by discriminate. rewrite IH. assert (X : exists f fs, flat_map pieces (b :: l) = f :: fs).
    { cbn [flat_map]. destruct b as [k v|k v h]; cbn [pieces app]; [eauto|]. destruct (set_values h) as [|p q]; simpl; eauto. }
    destruct X as (f & fs & X). rewrite X. symmetry. apply J.
Qed.
Lemma init_plain stamp cls l : ~ contains "(" stamp -> ~ contains "(" cls -> Forall plain_arg l -> l <> [] -> last_plain (flat_map pieces l) ->
  init_to_hps (init_line stamp cls (map arg_text l)) = Ok (flat_map arg_values l).
Proof.
  intros A B G N L. unfold init_line. rewrite build_text. rewrite init_to_hps_args by auto. unfold processed.
  assert (NC : forall x, In x ["("%char; ")"%char] -> Forall (fun a => Forall (fun p => no x (fst p) /\ no x (snd p)) (arg_values a)) l).
  { intros x Hx. eapply Forall_impl; [|exact G]. intros a Fa. eapply Forall_impl; [|exact Fa]. intros p [P Q]. destruct Hx as [<-|[<-|[]]]; split; first [apply P|apply Q]. }
  rewrite rep2_build by exact G. rewrite (rep1_build "(" "," l "(" ")" "," "," ")" ",") by (try discriminate; try reflexivity; apply NC; simpl; auto).
  rewrite (rep1_build ")" "," l "," ")" "," "," "," ",") by (try discriminate; try reflexivity; apply NC; simpl; auto). rewrite build_items.
  assert (GP : Forall good_piece (flat_map pieces l)).
  { apply good_values. clear - G. induction G as [|a l Fa G IH]; [constructor|]. cbn [flat_map]. rewrite map_app. apply Forall_app. split; [rewrite pieces_values; exact Fa|exact IH]. }
  assert (NE : flat_map pieces l <> []).
  { destruct l as [|b l]; [congruence|]. cbn [flat_map]. destruct b as [k v|k v h]; cbn [pieces app]; [discriminate|]. destruct (set_values h) as [|p q]; simpl; discriminate. }
  rewrite items_double by (auto; apply good_pl; simpl; auto). rewrite pieces_plain by auto. f_equal.
  clear. induction l as [|a l IH]; [reflexivity|]. cbn [flat_map]. rewrite map_app, pieces_values, IH. reflexivity.
Qed.
Lemma last_text l k v : last_plain (flat_map pieces (l ++ [Text k v])).
Proof. rewrite flat_map_app. cbn [flat_map pieces app]. unfold last_plain. rewrite last_last. reflexivity. Qed.
(** a piece without "=" is refused *)
Lemma rmap_piece l b : In b l -> ~ contains "=" b ->
  rmap (fun hp => match split "=" hp with [k; v] => Ok (k, v) | _ => Err ValueError end) l = Err ValueError.
Proof.
  intros I N. induction l as [|x l IH]; [destruct I|]. cbn [rmap]. destruct I as [-> | I].
  - rewrite (split_none "=" b N). reflexivity.
  - rewrite (IH I). destruct (split "=" x) as [|k [|v [|? ?]]]; reflexivity.
Qed.
Lemma rep_between old new P b S : old <> "" -> ~ contains "," old -> ~ contains old b ->
  rep old new 0 (P ++ "," ++ b ++ "," ++ S) = (rep old new 0 P ++ "," ++ b ++ "," ++ rep old new 0 S)%string.
Proof.
  intros O C N. change (P ++ "," ++ b ++ "," ++ S)%string with (P ++ String "," (b ++ String "," S))%string.
  rewrite (rep_app old new "," _ O C P 0) by lia. rewrite (rep_app old new "," _ O C b 0) by lia. rewrite (rep_none old new b N). reflexivity.
Qed.
Lemma contains_trans a b c : contains a b -> contains b c -> contains a c.
Proof. intros (x & y & ->) (u & v & ->). exists (u ++ x)%string, (y ++ v)%string. rewrite !append_assoc. reflexivity. Qed.
Lemma processed_piece P b S : plain b -> b <> "" -> In b (split "," (processed (P ++ "," ++ b ++ "," ++ S))).
Proof.
  intros (A & B & C & D) N. unfold processed.
  assert (A' : ~ contains "()" b) by (intros K; apply A; eapply contains_trans; [|exact K]; exists "", ")"; reflexivity).
  rewrite (rep_between "()"); [|discriminate|apply hasb_false; reflexivity|exact A'].
  rewrite (rep_between "("); [|discriminate|apply hasb_false; reflexivity|exact A].
  rewrite (rep_between ")"); [|discriminate|apply hasb_false; reflexivity|exact B].
  generalize (rep ")" "," 0 (rep "(" "," 0 (rep "()" "," 0 P))) as X. generalize (rep ")" "," 0 (rep "(" "," 0 (rep "()" "," 0 S))) as Y. intros Y X.
  destruct b as [|d b]; [congruence|].
  assert (Dn : d <> ","%char) by (intros ->; apply C; exists "", b; reflexivity).
  assert (Cb : ~ contains "," b) by (intros K; apply C, contains_cons, K).
  replace (X ++ "," ++ String d b ++ "," ++ Y)%string with ((X ++ ",") ++ String d (b ++ String "," Y))%string by (rewrite append_assoc; reflexivity).
  rewrite rep_app; [|discriminate| |lia].
  - rewrite (rep_skip "," "," "," b _ Cb). destruct (rep_cc_ends X) as ((x & ->) & _). destruct (rep_cc_starts Y) as (y & ->).
    replace ((x ++ ",") ++ String d (b ++ String "," y))%string with (x ++ String "," (String d b ++ String "," y))%string by (rewrite append_assoc; reflexivity).
    rewrite split_mid, split_mid. rewrite (split_none "," (String d b) C). apply in_or_app. right. apply in_or_app. left. left. reflexivity.
  - intros (a & b' & E). destruct a as [|a0 a]; [injection E as E _; congruence|]. injection E as _ E. destruct a as [|a1 a]; [injection E as E _; congruence|]. injection E as _ E. destruct a; discriminate.
Qed.
Lemma init_refused stamp cls P b S : ~ contains "(" stamp -> ~ contains "(" cls -> plain b -> b <> "" ->
  init_to_hps ("[" ++ stamp ++ " - gama.gama] INIT:" ++ cls ++ "(" ++ (P ++ "," ++ b ++ "," ++ S) ++ ")" ++ nl) = Err ValueError.
Proof.
  intros A B H N. rewrite init_to_hps_args by auto. apply (rmap_piece _ b); [apply processed_piece; auto|]. apply H.
Qed.
