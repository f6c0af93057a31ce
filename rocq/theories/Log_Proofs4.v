From Verif Require Import Base Str_Model Str_Spec Str_Proofs Misc_Model Log_Model Log_Spec Log_Proofs Log_Proofs2 Log_Proofs3 Data_Proofs2.
Require Import Ascii.
Open Scope string_scope.
Open Scope list_scope.
Open Scope nat_scope.

(** what can be read back is clean *)
Lemma lines_piece s l : In l (lines s) -> In l (split nl s).
Proof.
  unfold lines. destruct (String.eqb (last (split nl s) "") ""); [|auto]. intros I.
  destruct (split nl s) as [|h t] eqn:E; [destruct I|]. rewrite (app_removelast_last "" (l := h :: t)) by discriminate. apply in_or_app. left. exact I.
Qed.
Lemma read_clean c rows file : read_back (String c "") file = rows -> Forall (Forall (clean (String c ""))) rows.
Proof.
  intros <-. unfold read_back. apply Forall_forall. intros r I. apply in_map_iff in I. destruct I as (l & <- & I). apply lines_piece in I.
  apply Forall_forall. intros v J. split; [eapply split_piece_char; exact J|]. intros C. apply (split_piece_char (ascii_of_nat 10) _ _ I).
  eapply contains_trans; [exact C|]. eapply split_piece_in; exact J.
Qed.
Lemma read_iff c rows : c <> ascii_of_nat 10 -> Forall (fun r => r <> []) rows ->
  (read_back (String c "") (logged (String c "") rows) = rows <-> Forall (Forall (clean (String c ""))) rows).
Proof.
  intros C N. split; [apply read_clean|]. intros F. rewrite logged_text. unfold read_back. apply rows_read; auto.
  rewrite Forall_forall in *. intros r I. split; auto.
Qed.

(** * an update that raises *)
Section R.
Context {num ind : Type} (float_of : string -> res num) (parse : string -> res ind) (m : nat) (names : list string).
Hypothesis names_clean : Forall (clean ";") names.
Hypothesis names_two : 2 <= length names.
Definition fits (r : list string) : Prop := Forall (clean ";") r /\ length r = length names.
Lemma read_fits rows : rows <> [] -> Forall fits rows -> read_csv (text ";" rows) = Ok rows.
Proof.
  intros N F. unfold read_csv. rewrite lines_text by (eapply Forall_impl; [|exact F]; intros r (G & _); apply no_nl; exact G).
  assert (E : filter (fun l => negb (l =? "")%string) (map (join ";") rows) = map (join ";") rows).
  { clear N. induction F as [|r rows (G & Lr) F IH]; auto. cbn [map filter]. rewrite (join_blank names names_two) by (rewrite Lr; exact names_two). simpl. f_equal. exact IH. }
  rewrite E. destruct rows as [|r rows]; [congruence|]. cbn [map].
  assert (S : forall r, fits r -> split ";" (join ";" r) = r).
  { intros x (B & Lx). apply split_join; [destruct x; [simpl in Lx; lia|discriminate]|]. eapply Forall_impl; [|exact B]. intros v (H & _). exact H. }
  assert (L : length (split ";" (join ";" r)) = length names) by (inversion F; subst; rewrite S by auto; match goal with H : fits r |- _ => apply H end).
  rewrite L. change (join ";" r :: map (join ";") rows) with (map (join ";") (r :: rows)). clear L E N.
  induction F as [|x l G F IH]; [reflexivity|]. cbn [map rmap]. rewrite (S x G). destruct G as (_ & Lx). rewrite Lx, Nat.leb_refl, Nat.sub_diag. cbn [repeat rbind]. rewrite IH, app_nil_r. reflexivity.
Qed.
Lemma rmap_first {A B} (f : A -> res B) l : (exists x, In x l /\ forall y, f x <> Ok y) -> exists e, rmap f l = Err e.
Proof.
  intros (x & I & N). induction l as [|a l IH]; [destruct I|]. cbn [rmap]. destruct (f a) as [y|e] eqn:E; [|exists e; reflexivity]. cbn [rbind].
  destruct I as [-> | I]; [exfalso; exact (N _ E)|]. destruct (IH I) as (e & ->). exists e. reflexivity.
Qed.
Lemma row_len rows : Forall fits rows -> forallb (fun row => length row =? length names) rows = true.
Proof. intros F. apply forallb_forall. rewrite Forall_forall in F. intros x I. apply Nat.eqb_eq, F, I. Qed.
(** whatever rows are unreadable, the position advances past all of them *)
Lemma update_fails seen rest r force : Forall fits rest ->
  Nat.max (r_tell r) (String.length (join ";" names) + 1) = pos names seen ->
  (exists row, In row rest /\ ~ readable_m float_of parse m names row) ->
  exists e, update float_of parse m true force (file_of names (seen ++ rest)) r = (Err e, mkRep (pos names (seen ++ rest)) (r_evals r) (r_inds r)).
Proof.
  intros F T (row & I & N). unfold update. rewrite andb_false_r. cbn [negb].
  rewrite (first_line_of names names_clean), T, (drop_rest names names_two), (names_split names names_clean names_two), (file_length names names_two).
  rewrite read_fits; [|intros ->; destruct I|exact F]. rewrite (row_len _ F). cbn [negb].
  destruct (rmap (fun row0 => do s <- cell_of names row0 "score"; do q <- tuple_to_metrics float_of s; if length q =? m then Ok q else Err ValueError) rest) as [qs|e] eqn:Em; [|exists e; reflexivity].
  destruct (rmap_first (fun row0 => do i <- cell_of names row0 "id"; do p <- cell_of names row0 "pipeline"; do x <- parse p; Ok (i, x)) rest) as (e & ->); [|exists e; reflexivity].
  exists row. split; [exact I|]. intros y Ey. apply N. rewrite Forall_forall in F. destruct (F row I) as (Fc & Fl). split; [exact Fc|]. split; [exact Fl|]. split.
  - assert (exists q, (do s <- cell_of names row "score"; do q <- tuple_to_metrics float_of s; if length q =? m then Ok q else Err ValueError) = Ok q) as (q & Eq).
    { clear - Em I. revert qs Em. induction rest as [|a l IH]; intros qs Em; [destruct I|]. cbn [rmap] in Em.
      destruct (do s <- cell_of names a "score"; do q <- tuple_to_metrics float_of s; if length q =? m then Ok q else Err ValueError) as [q|] eqn:Ea; [|discriminate]. cbn [rbind] in Em.
      destruct I as [-> | I]; [exists q; exact Ea|]. destruct (rmap _ l) as [qs'|] eqn:El; [|discriminate]. eapply IH; eauto. }
    destruct (cell_of names row "score") as [s|] eqn:Es; [|discriminate]. cbn [rbind] in Eq. destruct (tuple_to_metrics float_of s) as [q'|] eqn:Et; [|discriminate]. cbn [rbind] in Eq.
    destruct (Nat.eqb_spec (length q') m) as [L|]; [|discriminate]. exists q'. split; [exact L|]. exists s. auto.
  - destruct (cell_of names row "id") as [i|] eqn:Ei; [|discriminate]. cbn [rbind] in Ey. destruct (cell_of names row "pipeline") as [p|] eqn:Ep; [|discriminate]. cbn [rbind] in Ey.
    destruct (parse p) as [x|] eqn:Ex; [|discriminate]. exists (i, x). split; [exact Ei|]. exists p. auto.
Qed.
(** and the rows before stay unseen by the next update *)
Lemma update_next seen rest r force : Forall (readable_m float_of parse m names) rest -> rest <> [] ->
  Nat.max (r_tell r) (String.length (join ";" names) + 1) = pos names seen -> r_evals r = [] ->
  exists r', update float_of parse m true force (file_of names (seen ++ rest)) r = (Ok true, r') /\ map (fun e => fst (snd e)) (r_evals r') = rest.
Proof.
  intros G N T Ev. unfold update. rewrite andb_false_r. cbn [negb].
  rewrite (first_line_of names names_clean), T, (drop_rest names names_two), (names_split names names_clean names_two), (file_length names names_two).
  assert (F : Forall fits rest) by (eapply Forall_impl; [|exact G]; intros x (A & B & _); split; auto).
  rewrite read_fits by auto. rewrite (row_len _ F). cbn [negb].
  destruct (rmap_metrics float_of parse m names rest G) as (qs & -> & Fq). destruct (rmap_inds float_of parse m names rest G) as (ps & -> & Fp).
  eexists. split; [reflexivity|]. cbn [r_evals]. rewrite Ev. simpl app. generalize 0 as k. clear - Fq.
  induction Fq as [|x q l qs H Fq IH]; intros k; [reflexivity|]. simpl. f_equal. apply IH.
Qed.
Lemma lost bad good f g : bad <> [] -> good <> [] -> Forall fits bad -> Forall (readable_m float_of parse m names) good ->
  (exists row, In row bad /\ ~ readable_m float_of parse m names row) ->
  map (fun e => fst (snd e)) (r_evals (snd (run_ops float_of parse m names (map OWrite bad ++ [OUpdate f] ++ map OWrite good ++ [OUpdate g])))) = good.
Proof.
  intros Nb Ng Fb Gg Ex. unfold run_ops.
  assert (W : forall rows seen r, fold_left (op_step float_of parse m) (map OWrite rows) (file_of names seen, r) = (file_of names (seen ++ rows), r)).
  { induction rows as [|x rows IH]; intros seen r; [simpl; rewrite app_nil_r; reflexivity|]. cbn [map fold_left op_step fst snd]. rewrite (file_write names), IH, <- app_assoc. reflexivity. }
  assert (E0 : log_line ";" names "" = file_of names []) by reflexivity.
  rewrite fold_left_app, E0, W. cbn [app]. cbn [fold_left op_step fst snd].
  destruct (update_fails [] bad report0 f Fb) as (e & E); [unfold pos; simpl; lia|exact Ex|]. simpl app in E. rewrite E. cbn [snd r_evals r_inds report0]. simpl app.
  rewrite fold_left_app, W. cbn [fold_left op_step fst snd].
  destruct (update_next bad good (mkRep (pos names bad) [] []) g Gg Ng) as (r' & E2 & H); [cbn [r_tell]; unfold pos; lia|reflexivity|].
  rewrite E2. exact H.
Qed.
End R.

(** * phases *)
Lemma has_contains sub s : has sub s = true <-> contains sub s.
Proof.
  unfold has. split.
  - induction s as [|c s IH]; cbn [after_first].
    + destruct (String.prefix sub "") eqn:P; [|discriminate]. intros _. apply prefix_contains. exact P.
    + destruct (String.prefix sub (String c s)) eqn:P; [intros _; apply prefix_contains; exact P|]. intros H. apply contains_cons, IH, H.
  - intros C. destruct (after_first sub s) eqn:E; [reflexivity|]. exfalso. exact (after_first_none _ _ E C).
Qed.
Lemma chop1_wrap a b s : chop1 (String a (s ++ String b "")) = s.
Proof.
  unfold chop1. cbn [String.length]. rewrite len_append. simpl. replace (String.length s + 1 - 1) with (String.length s) by lia.
  induction s as [|c s IH]; [reflexivity|]. simpl. f_equal. exact IH.
Qed.
Lemma substring_app s t : substring 0 (String.length s) (s ++ t) = s.
Proof. induction s as [|c s IH]; [destruct t; reflexivity|]. simpl. f_equal. exact IH. Qed.
Lemma chop3_app s t : String.length t = 3 -> chop3 (s ++ t) = s.
Proof. intros H. unfold chop3. rewrite len_append, H. replace (String.length s + 3 - 3) with (String.length s) by lia. apply substring_app. Qed.
Lemma stop_read stamp place ph algo dur : stop_ok stamp place ph algo dur ->
  read_stop (stop_line stamp place ph algo dur) = Ok (mkPhase ph algo stamp dur).
Proof.
  intros (A & B & C & D & E & F & G). unfold read_stop, stop_line.
  replace ("[" ++ stamp ++ " - " ++ place ++ "] STOP: " ++ ph ++ " " ++ algo ++ " after " ++ dur ++ "s." ++ nl)%string with
    (("[" ++ stamp ++ " - " ++ place ++ "]") ++ " STOP: " ++ (ph ++ " " ++ algo ++ " after " ++ dur ++ "s." ++ nl))%string by (rewrite !append_assoc; reflexivity).
  rewrite split_at; [|discriminate|intros K; apply A; replace ("[" ++ stamp ++ " - " ++ place ++ "] STOP:")%string with (("[" ++ stamp ++ " - " ++ place ++ "]") ++ " STOP:")%string by (rewrite !append_assoc; reflexivity); exact K].
  rewrite (split_none " STOP: " _ B).
  replace ("[" ++ stamp ++ " - " ++ place ++ "]")%string with (String "[" ((stamp ++ " - " ++ place) ++ String "]" ""))%string by (rewrite !append_assoc; reflexivity).
  rewrite chop1_wrap. rewrite split_at; [|discriminate|exact C]. rewrite (split_none " - " _ D).
  change (ph ++ " " ++ algo ++ " after " ++ dur ++ "s." ++ nl)%string with (ph ++ String " " (algo ++ String " " ("after" ++ String " " (dur ++ ("s." ++ nl)))))%string.
  rewrite (split_char " " ph _ E), (split_char " " algo _ F), (split_char " " "after") by (apply hasb_false; reflexivity).
  rewrite (split_none " " (dur ++ "s." ++ nl)) by (apply plain_app; [exact G|apply hasb_false; reflexivity]).
  rewrite chop3_app by reflexivity. reflexivity.
Qed.
(** the phases of a log are its STOP lines, in order *)
Lemma read_log_phases : forall es h ph, Forall entry_ok es ->
  read_log (map entry_line es) h ph = Ok (h, ph ++ concat (map entry_phase es)).
Proof.
  induction es as [|o es IH]; intros h ph F; [simpl; rewrite app_nil_r; reflexivity|]. inversion F as [|? ? (A & B) F']; subst.
  cbn [map read_log concat].
  assert (HI : has "INIT:" (entry_line o) = false) by (destruct (has "INIT:" (entry_line o)) eqn:E; auto; apply has_contains in E; tauto). rewrite HI. cbn [rbind].
  destruct o as [t p n a d|l]; cbn [entry_line entry_phase] in *.
  - assert (HS : has "STOP:" (stop_line t p n a d) = true).
    { apply has_contains. unfold stop_line. exists ("[" ++ t ++ " - " ++ p ++ "] ")%string, (" " ++ n ++ " " ++ a ++ " after " ++ d ++ "s." ++ nl)%string. rewrite !append_assoc. reflexivity. }
    rewrite HS, (stop_read _ _ _ _ _ B). cbn [rbind]. rewrite (IH h _ F'). rewrite <- app_assoc. reflexivity.
  - assert (HS : has "STOP:" l = false) by (destruct (has "STOP:" l) eqn:E; auto; apply has_contains in E; tauto). rewrite HS. cbn [rbind]. rewrite (IH h ph F'). reflexivity.
Qed.
Lemma read_log_app a b : forall h ph, read_log (a ++ b) h ph = (do p <- read_log a h ph; read_log b (fst p) (snd p)).
Proof.
  induction a as [|l a IH]; intros h ph; [destruct (read_log b h ph); reflexivity|]. cbn [app read_log].
  destruct (if has "INIT:" l then _ else _) as [h'|]; [|reflexivity]. cbn [rbind]. destruct (if has "STOP:" l then _ else _) as [ph'|]; [|reflexivity]. cbn [rbind]. apply IH.
Qed.

(** * handlers *)
Lemma handlers_inv ops : forall hs reg, 
  filter (fun h => negb (hd_tagged h)) hs ++ foreign ops = filter (fun h => negb (hd_tagged h)) hs ++ foreign ops ->
  filter hd_tagged hs = match reg with Some (n, v) => [mkHandler n true true v] | None => [] end ->
  Forall (fun h => hd_tagged h = false) (foreign ops) ->
  let hs' := fold_left log_step ops hs in
  filter hd_tagged hs' = match fold_left (fun acc o => match o with Register n v => Some (n, v) | AddHandler _ => acc end) ops reg with Some (n, v) => [mkHandler n true true v] | None => [] end /\
  filter (fun h => negb (hd_tagged h)) hs' = filter (fun h => negb (hd_tagged h)) hs ++ foreign ops.
Proof.
  induction ops as [|o ops IH]; intros hs reg _ T F; cbn [fold_left]; [split; [exact T|unfold foreign; simpl; rewrite app_nil_r; reflexivity]|].
  destruct o as [n v|h].
  - assert (St : forall h, In h hs -> hd_tagged h = true -> hd_stream h = true).
    { intros h I H. assert (J : In h (filter hd_tagged hs)) by (apply filter_In; auto). rewrite T in J. destruct reg as [[a b]|]; [|destruct J]. destruct J as [<- | []]. reflexivity. }
    assert (E : register_stream_log n v hs = filter (fun h => negb (hd_tagged h)) hs ++ [mkHandler n true true v]).
    { unfold register_stream_log. f_equal. destruct (existsb hd_tagged hs) eqn:Ex.
      - apply filter_ext_in. intros h I. destruct (hd_tagged h) eqn:Q; [rewrite (St h I Q)|]; reflexivity.
      - symmetry. clear - Ex. induction hs as [|h hs IH]; auto. simpl in *. apply orb_false_iff in Ex. destruct Ex as (-> & Ex). simpl. f_equal. auto. }
    assert (N1 : filter hd_tagged (filter (fun h => negb (hd_tagged h)) hs) = []).
    { clear. induction hs as [|h hs IH]; auto. simpl. destruct (hd_tagged h) eqn:Q; simpl; rewrite ?Q; auto. }
    assert (N2 : filter (fun h => negb (hd_tagged h)) (filter (fun h => negb (hd_tagged h)) hs) = filter (fun h => negb (hd_tagged h)) hs).
    { clear. induction hs as [|h hs IH]; auto. simpl. destruct (hd_tagged h) eqn:Q; simpl; rewrite ?Q; simpl; auto. f_equal. exact IH. }
    cbn [log_step]. rewrite E. destruct (IH (filter (fun h => negb (hd_tagged h)) hs ++ [mkHandler n true true v]) (Some (n, v)) eq_refl) as (A & B).
    + rewrite filter_app, N1. reflexivity.
    + exact F.
    + cbv zeta in A, B. split; [exact A|]. rewrite B, filter_app, N2. simpl. rewrite app_nil_r. reflexivity.
  - assert (Q : hd_tagged h = false) by (inversion F; auto). assert (F' : Forall (fun h => hd_tagged h = false) (foreign ops)) by (inversion F; auto).
    cbn [log_step]. destruct (IH (hs ++ [h]) reg eq_refl) as (A & B); [rewrite filter_app; simpl; rewrite Q, app_nil_r; exact T|exact F'|].
    split; [exact A|]. cbv zeta in B. rewrite B, filter_app. simpl. rewrite Q. simpl. rewrite <- app_assoc. reflexivity.
Qed.
(** * files *)
Lemma files_keep : forall es fs, exists more, fold_left files_step es fs = map (fun p => (fst p, snd p ++ messages es)) fs ++ more.
Proof.
  induction es as [|e es IH]; intros fs; cbn [fold_left].
  - exists []. rewrite app_nil_r. unfold messages. simpl. rewrite <- (map_id fs) at 1. apply map_ext. intros [f ls]. simpl. rewrite app_nil_r. reflexivity.
  - destruct (IH (files_step fs e)) as (more & ->). destruct e as [[f|]|l]; cbn [files_step].
    + rewrite map_app, <- app_assoc. eexists. reflexivity.
    + exists more. reflexivity.
    + exists more. rewrite map_map. f_equal. apply map_ext. intros [f ls]. cbn [fst snd]. unfold messages. simpl. rewrite <- app_assoc. reflexivity.
Qed.
Lemma file_of_instance before f after : exists l r,
  files_run (before ++ Create (Some f) :: after) = l ++ (f, messages after) :: r /\ length l = length (files_run before).
Proof.
  unfold files_run. rewrite fold_left_app. cbn [fold_left files_step]. destruct (files_keep after (fold_left files_step before [] ++ [(f, [])])) as (more & ->).
  rewrite map_app, <- app_assoc. cbn [map fst snd app]. eexists _, _. split; [reflexivity|]. apply map_length.
Qed.

(** the report's functions and the specification *)
Lemma cell_of_iff name s : forall names row, cell_of names row name = Ok s <-> cell names row name s.
Proof.
  induction names as [|n names IH]; intros row.
  - simpl. split; [discriminate|]. intros ([|i] & E & _); discriminate.
  - destruct row as [|x row]; [cbn [cell_of]; split; [discriminate|intros ([|i] & _ & _ & E); discriminate]|]. cbn [cell_of].
    destruct (String.eqb_spec n name) as [->|N].
    + split; [intros E; injection E as <-; exists 0; split; [reflexivity|]; split; [lia|reflexivity]|].
      intros ([|i] & E & F & G); [injection G as ->; reflexivity|]. exfalso. apply (F 0); [lia|reflexivity].
    + rewrite IH. split.
      * intros (i & E & F & G). exists (S i). split; [exact E|]. split; [|exact G]. intros [|j] L; [intros K; injection K as ->; congruence|]. apply F. lia.
      * intros ([|i] & E & F & G); [injection E as ->; congruence|]. exists i. split; [exact E|]. split; [|exact G]. intros j L. apply (F (S j)). lia.
Qed.
Lemma rmap_forall2_iff {A B} (f : A -> res B) : forall l q, rmap f l = Ok q <-> Forall2 (fun a b => f a = Ok b) l q.
Proof.
  induction l as [|a l IH]; intros q; cbn [rmap].
  - split; [intros E; injection E as <-; constructor|]. intros F. inversion F. reflexivity.
  - split.
    + destruct (f a) as [b|] eqn:E; [|discriminate]. cbn [rbind]. destruct (rmap f l) as [q'|] eqn:R; [|discriminate]. cbn [rbind]. intros K. injection K as <-. constructor; [exact E|]. apply IH. reflexivity.
    + intros F. inversion F as [|? b ? q' E F']; subst. rewrite E. cbn [rbind]. rewrite (proj2 (IH q') F'). reflexivity.
Qed.
Section S.
Context {num ind : Type} (float_of : string -> res num) (parse : string -> res ind) (m : nat) (names : list string).
Lemma tuple_metrics s parts q : tuple_of s parts -> (tuple_to_metrics float_of s = Ok q <-> Forall2 (fun p x => float_of p = Ok x) parts q).
Proof.
  intros (N & C & ->). unfold tuple_to_metrics.
  assert (K : ("(" ++ join "," parts ++ ")")%string = String "(" (join "," parts ++ String ")" "")) by reflexivity. rewrite K, chop1_wrap.
  rewrite (split_join ","%char parts N C). apply rmap_forall2_iff.
Qed.
Lemma metrics_m row q : row_metrics float_of m names row q -> row_metrics_m float_of m names row q.
Proof. intros (L & s & parts & C & T & F). split; [exact L|]. exists s. split; [apply cell_of_iff; exact C|]. apply (tuple_metrics s parts q T). exact F. Qed.
Lemma ind_m row p : row_ind parse names row p <-> row_ind_m parse names row p.
Proof.
  unfold row_ind, row_ind_m. rewrite cell_of_iff. split; intros (A & s & B & C); (split; [exact A|]; exists s; split; [apply cell_of_iff; exact B|exact C]).
Qed.
Lemma readable_model row : readable float_of parse m names row -> readable_m float_of parse m names row.
Proof.
  intros (A & B & (q & Q) & (p & P)). split; [exact A|]. split; [exact B|]. split; [exists q; apply metrics_m; exact Q|]. exists p. apply ind_m. exact P.
Qed.
Lemma readable_metrics row q : readable float_of parse m names row -> row_metrics_m float_of m names row q -> row_metrics float_of m names row q.
Proof.
  intros (_ & _ & (q0 & L0 & s0 & parts & C0 & T & _) & _) (L & s & C & F). split; [exact L|]. exists s0, parts. split; [exact C0|]. split; [exact T|].
  apply cell_of_iff in C0. rewrite C0 in C. injection C as <-. apply (tuple_metrics s0 parts q T). exact F.
Qed.
Lemma unreadable_model row : unreadable float_of parse m names row -> ~ readable_m float_of parse m names row.
Proof.
  intros [(s & e & C & E) | (s & parts & C & T & D)] (_ & _ & (q & L & s' & C' & Q) & (p & _ & s'' & C'' & P)); apply cell_of_iff in C.
  - rewrite C in C''. injection C'' as <-. congruence.
  - rewrite C in C'. injection C' as <-. apply (tuple_metrics s parts q T) in Q. destruct D as [D | (x & e & I & E)].
    + apply D. rewrite <- L. clear - Q. induction Q; simpl; congruence.
    + clear - Q I E. induction Q as [|a b l l' H Q IH]; [destruct I|]. destruct I as [<- | I]; [congruence|auto].
Qed.
End S.
Lemma hp_get_in h (ND : NoDup (map fst h)) k v : In (k, v) h -> hp_get h k = Some v.
Proof.
  intros I. unfold hp_get. assert (ND' : NoDup (map fst (rev h))) by (rewrite map_rev; apply NoDup_rev; exact ND). apply in_rev in I. revert ND' I.
  generalize (rev h) as l. clear. induction l as [|[a b] l IH]; intros ND I; [destruct I|]. inversion ND as [|? ? NI ND']; subst. cbn [find fst].
  destruct I as [I|I].
  - injection I as -> ->. rewrite String.eqb_refl. reflexivity.
  - destruct (String.eqb_spec k a) as [->|]; [exfalso; apply NI; apply in_map_iff; exists (a, v); auto|auto].
Qed.
