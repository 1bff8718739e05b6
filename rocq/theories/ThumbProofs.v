(** Proofs about thumbnails: names, one thumbnail, the loop. *)
From Coq Require Import Ascii.
From stdpp Require Import base list strings gmap.
From Coq Require Import ZArith Lia.
From Verif Require Import GoStr PathModel PathProofs InventoryModel ObjectModel InventorySpec InventoryProofs ClaimsInventory2 LookupProofs AddProofs ObjectSpec ObjectProofs CrashSpec CrashProofs LoadModel LoadProofs
  AreaModel AreaSpec AreaProofs ValidateModel PublishSpec PublishProofs PublishProofs2 PublishProofs3 PublishProofs4 JsonlModel JsonlSpec JsonlProofs JsonlProofs2
  MetafileModel MetafileSpec MetafileProofs MigrateModel LayoutModel ThumbModel ThumbSpec.

(** * Names *)
Definition leaf (T : tconf) (n : N) : string := dec_pad 5 (Z.of_N n) +:+ "." +:+ to_lower (tc_ext T).
Lemma leaf_inj T n m : leaf T n = leaf T m → n = m.
Proof.
  unfold leaf. rewrite !dec_pad_pos. intros H. apply str_app_inv_r in H. apply (version_name_inj 5). unfold version_name.
  rewrite !decide_False by lia. f_equal. exact H.
Qed.
Lemma leaf_plain T n : suffix_name (tc_ext T) → CrashSpec.plain_name (leaf T n).
Proof.
  intros Hs. unfold leaf. rewrite dec_pad_pos. set (z := str_repeat "0" _).
  assert (str_mem slash (z +:+ dec_of_N n) = false) as Hm.
  { pose proof (version_name_no_slash 5 n) as H. unfold version_name in H. rewrite decide_False in H by lia. rewrite str_mem_app in H.
    apply orb_false_elim in H as [_ H]. exact H. }
  assert (∃ c t, z +:+ dec_of_N n = String c t ∧ c ≠ "."%char) as (c & t & E & Hc).
  { destruct z as [|a z'] eqn:Ez.
    - destruct (dec_of_N_digit n) as (c & t & E & Hr & _). exists c, t. split; [exact E|]. intros ->. change (N_of_ascii ".") with 46%N in Hr. lia.
    - exists a, (z' +:+ dec_of_N n). split; [done|]. subst z. destruct (5 - _) as [|k]; [done|]. cbn [str_repeat] in Ez.
      change ("0" +:+ str_repeat "0" k) with (String "0" (str_repeat "0" k)) in Ez. by injection Ez as <- _. }
  rewrite E in Hm |- *. repeat split; [done| | |].
  - change (String c t +:+ "." +:+ to_lower (tc_ext T)) with (String c (t +:+ "." +:+ to_lower (tc_ext T))). by intros [= ? _].
  - change (String c t +:+ "." +:+ to_lower (tc_ext T)) with (String c (t +:+ "." +:+ to_lower (tc_ext T))). by intros [= ? _].
  - rewrite str_mem_app, Hm. cbn [orb]. rewrite str_mem_app. exact Hs.
Qed.
Lemma hex_chars n c : c ∈ list_ascii_of_string (hex_of_N n) → CrashSpec.plain_name (String c "").
Proof.
  unfold hex_of_N. assert (∀ d c, c ∈ list_ascii_of_string (HexadecimalString.NilEmpty.string_of_uint d) → CrashSpec.plain_name (String c "")) as H.
  { clear. induction d; cbn [HexadecimalString.NilEmpty.string_of_uint list_ascii_of_string]; intros c; rewrite ?elem_of_cons, ?elem_of_nil; [done|..];
      (intros [-> |Hin]; [by repeat split|by apply IHd]). }
  unfold HexadecimalString.NilZero.string_of_uint. destruct (N.to_hex_uint n) eqn:E; [|apply H..].
  cbn [list_ascii_of_string]. rewrite elem_of_cons, elem_of_nil. intros [-> |[]]. by repeat split.
Qed.

(** The folder, the version and the rest of a name. *)
Lemma name_parts T J head n r name : th_name T J head n r = Some name → suffix_name (tc_ext T) →
  ∃ rest, name = th_sub J +:+ "/" +:+ head +:+ "/" +:+ rest ∧ clean_rel rest ∧ last (split_slash rest) = Some (leaf T n).
Proof.
  intros H Hs. pose proof (leaf_plain T n Hs) as Hl. unfold th_name in H. fold (leaf T n) in H. destruct (tc_single T).
  - injection H as <-. exists (leaf T n). split; [done|]. split; [by apply clean_rel_plain|]. by rewrite split_slash_none by apply Hl.
  - destruct (hex_of_N r) as [|a [|b t]] eqn:E; [done..|]. injection H as <-.
    assert (CrashSpec.plain_name (String a "") ∧ CrashSpec.plain_name (String b "")) as [Ha Hb].
    { split; eapply (hex_chars r); rewrite E; cbn [list_ascii_of_string]; rewrite !elem_of_cons; auto. }
    exists (String a "" +:+ "/" +:+ String b "" +:+ "/" +:+ leaf T n). split; [done|]. split.
    + apply clean_rel_app; [by apply clean_rel_plain|]. apply clean_rel_app; by apply clean_rel_plain.
    + rewrite split_slash_app, split_slash_app, !(split_slash_none (leaf T n)) by apply Hl. by rewrite app_assoc, last_snoc.
Qed.

Lemma thumbnails_clean : clean_rel "thumbnails".
Proof. apply clean_rel_plain. by repeat split. Qed.
Lemma thumbs_clean l J dir : thumbs_in l J dir → clean_rel dir.
Proof.
  intros []; [|apply thumbnails_clean|by apply clean_rel_app, clean_rel_app].
  by apply (clean_rel_app _ "thumbnails"), thumbnails_clean.
Qed.
(** The call that stores a thumbnail. *)
Lemma last_comp a b x : last (split_slash b) = Some x → last (split_slash (a +:+ "/" +:+ b)) = Some x.
Proof. rewrite split_slash_app, !last_Some. intros [u ->]. exists (split_slash a ++ u). by rewrite app_assoc. Qed.
Lemma store_call E l T J dir orc n r y o name :
  manifest_by E l → thumbs_in l J dir → suffix_name (tc_ext T) → CrashSpec.plain_name (inv_head (ob_inv o)) →
  th_name T J (inv_head (ob_inv o)) n r = Some name →
  ∃ rest f area file, th_store E l T J orc n r y o = th_add E orc y f area (Some file) o ∧ e_manifest_path E f area = Some (dir +:+ "/" +:+ rest) ∧
    clean_rel (dir +:+ "/" +:+ rest) ∧ last (split_slash rest) = Some (leaf T n) ∧ file ≠ "".
Proof.
  intros HE HJ Hs Hh Hn. destruct (name_parts _ _ _ _ _ _ Hn Hs) as (rest & -> & Hr & Hl). pose proof (thumbs_clean _ _ _ HJ) as Hd.
  set (h := inv_head (ob_inv o)) in *. pose proof (clean_rel_plain _ Hh) as Hhc.
  unfold th_store. fold h. rewrite Hn. exists (h +:+ "/" +:+ rest).
  assert (clean_rel (h +:+ "/" +:+ rest)) as Hhr by (by apply clean_rel_app).
  pose proof (last_comp h rest _ Hl) as Hlast. clear Hn Hl Hr. set (z := h +:+ "/" +:+ rest) in *. clearbody z.
  assert (clean_rel ("thumbnails" +:+ "/" +:+ z)) as Hth by (apply clean_rel_app; [apply thumbnails_clean|done]).
  pose proof (clean_rel_app _ _ Hd Hhr) as Hdz.
  destruct HJ as [c nm co storage folder sub H1 H2 H3 H4|nm co storage folder|c nm co storage folder sub H1 H2 H3 H4];
    unfold th_sub; cbn [js_type js_storage].
  - rewrite (decide_True (P := "area" = "area")) by done. change (to_lower "area") with "area". rewrite (decide_True (P := "area" = "area")) by done.
    unfold area_path. cbn [area_path_from]. rewrite H3. rewrite decide_False by (by apply clean_rel_nonempty). cbn [fmap option_fmap option_map].
    eexists _, _, _. split; [done|]. split; [|split; [done|split; [done|by destruct sub]]]. rewrite HE. cbn [mgr_state_path]. unfold sub_state_path.
    rewrite (decide_False (P := storage = "")), (decide_False (P := storage = "full")), H3 by done.
    rewrite (join_two sub ("thumbnails" +:+ "/" +:+ z)) by done.
    rewrite decide_False by (by destruct sub). by rewrite <- (str_app_assoc sub).
  - rewrite (decide_True (P := "area" = "area")) by done. change (to_lower "area") with "area". rewrite (decide_True (P := "area" = "area")) by done.
    unfold area_path. cbn [area_path_from fmap option_fmap option_map]. eexists _, _, _. split; [done|]. split; [|done]. by rewrite HE.
  - change (if decide ("path" = "area") then "thumbnails" else storage) with storage. change (to_lower "path") with "path". rewrite (decide_False (P := "path" = "area")), (decide_True (P := "path" = "path")) by done.
    unfold area_path. cbn [area_path_from]. rewrite H2. rewrite decide_False by (by apply clean_rel_nonempty).
    assert (clean_rel (storage +:+ "/" +:+ z)) as Hsz by (by apply clean_rel_app).
    assert (clean_rel (sub +:+ "/" +:+ storage +:+ "/" +:+ storage +:+ "/" +:+ z)) as Hc by (by apply clean_rel_app, clean_rel_app).
    rewrite (join_three sub storage (storage +:+ "/" +:+ z)), (trim_clean _ Hc) by done.
    eexists _, _, _. split; [done|]. split; [|split; [done|split; [done|by destruct sub]]]. rewrite HE. cbn [mgr_state_path]. unfold sub_state_path.
    rewrite (decide_True (P := "" = "")), H1, decide_True by done. rewrite decide_False by (by destruct sub).
    by rewrite <- !str_app_assoc.
Qed.

(** * One thumbnail *)
Section one.
  Context (E : env) (s : storage) (Hhex : hex_hash (e_hash E)).
  (** Nothing can go wrong when content is added at a new place. *)
  Lemma add_working n orc data f area mp o o' st :
    working E s n o → oracle_ok orc → e_manifest_path E f area = Some mp → clean_rel mp →
    ob_add_reader E orc data [f] area o = (o', st) → st ≠ SPanic →
    st = SOk ∧ ∃ d, e_hash E (inv_alg (ob_inv o)) data = Some d ∧ to_lower d = d ∧
      let m := cpath (ob_inv o) (n + 1) mp in
      manifest_name (ob_inv o) mp = m ∧ ob_trace o' = ob_trace o ++ write_file m data ∧ lists (inv_manifest (ob_inv o')) m d ∧
      ∀ q e, lists (inv_manifest (ob_inv o')) q e → lists (inv_manifest (ob_inv o)) q e ∨ q = m.
  Proof using Hhex.
    intros ([fam Hk] & Hs & Hw) Ho Hmp Hc. set (i := ob_inv o) in *. pose proof (kp_good _ _ _ _ _ _ Hk) as HG.
    pose proof (contiguous_is _ _ (g_contig _ _ _ _ HG)) as Hh.
    assert (manifest_name i mp = cpath i (n + 1) mp) as Em.
    { unfold cpath. rewrite manifest_name_clean; [|rewrite (proj1 Hh), decide_False by lia; apply version_name_plain|apply (kp_cdir _ _ _ _ _ _ Hk)|done].
      by rewrite (proj1 Hh), decide_False by lia. }
    unfold ob_add_reader. fold i. rewrite Hw. unfold build_names. cbn [state_paths]. rewrite Hmp.
    destruct (e_state_path E f area) as [np|]; [|intros [= _ <-]; done]. unfold add_reader. fold i.
    set (algs := remove_dups (inv_fixalgs i ++ [inv_alg i])). set (m := manifest_name i mp) in *.
    assert (∀ a, a ∈ algs → a = inv_alg i ∨ a ∈ inv_fixalgs i) as Halgs.
    { intros a Ha. apply (proj1 (elem_of_remove_dups _ _)) in Ha. apply elem_of_app in Ha as [Ha|Ha%elem_of_list_singleton]; auto. }
    destruct (checksums_total E algs data) as [cs Hcs]; [intros a Ha; by apply Hs, Halgs|]. rewrite Hcs.
    destruct (Hs (inv_alg i) data (or_introl eq_refl)) as [d Hd].
    assert (assoc (inv_alg i) cs = Some d) as Ha.
    { rewrite (assoc_checksums _ _ _ _ _ Hcs); [done|]. apply elem_of_remove_dups, elem_of_app. right. by left. }
    destruct (Hhex _ _ _ Hd) as [[Hne _] Hlow]. unfold on_inv. cbn [ob_inv emit set_upd]. fold i. unfold add_file. rewrite Ha, Hlow.
    destruct (add_fixities_frame m cs i) as (Fv & Fm & Fh & Fp & Fa). pose proof (ext_rel_add_fixities m cs i) as He1.
    destruct (state_files_spec orc 0 m d np [] (add_fixities m cs i) (n + 1) Ho (ext_rel_head_is _ _ _ He1 Hh)) as (i' & ps & Eq & Hman & Hps & _);
      [lia|rewrite Fp; apply (kp_pad _ _ _ _ _ _ Hk)|done|apply manifest_name_nonempty|].
    rewrite Eq. intros [= <- <-] _. split; [done|]. exists d. split; [done|]. split; [done|]. cbv zeta. split; [done|].
    cbn [ob_trace ob_inv set_inv emit set_upd]. rewrite <- app_assoc, <- Em. split; [done|]. rewrite Hman, Fm. split.
    - eexists. split; [apply lookup_insert|]. apply elem_of_app. right. left.
    - intros q e (qs & Hq & Hin). apply lookup_insert_Some in Hq as [[<- <-]|[_ Hq]]; [|left; by exists qs].
      apply elem_of_app in Hin as [Hin|[->|Hin]%elem_of_cons]; [|by right|right; rewrite stdpp.list.Forall_forall in Hps; by symmetry; apply Hps].
      left. destruct (inv_manifest i !! d) as [l|] eqn:El; [by exists l|by apply elem_of_nil in Hin].
  Qed.
End one.

(** * The loop *)
Section loop.
  Context (E : env) (s : storage) (Hhex : hex_hash (e_hash E)) (l : list subpaths) (HE : manifest_by E l) (T : tconf) (HT : suffix_name (tc_ext T))
    (J : jstore) (dir : string) (HJ : thumbs_in l J dir) (S : tsur) (idx : gmap string (string * string)) (dn : gmap string tmeta)
    (orcs : nat → oracle) (Horcs : ∀ k, oracle_ok (orcs k)) (rnd : nat → N).

  Definition used (n : N) (o : object) : Prop :=
    ∀ q e, lists (inv_manifest (ob_inv o)) q e → in_new (ob_inv o) dir q → ∃ j, (j <= n)%N ∧ last (split_slash q) = Some (leaf T j).
  Definition outcome (o' : object) (f : tfun) (ext x : string) (res : tres) : Prop :=
    match tf_run f ext x with
    | Some y => tr_error res = "" ∧ tr_id res = tf_id f ∧ e_hash E (inv_alg (ob_inv o')) y = Some (tr_digest res) ∧
                ∃ q, has s q (tr_digest res) y o' ∧ in_new (ob_inv o') dir q
    | None => tr_error res ≠ "" ∧ tr_id res = tf_id f
    end.
  Lemma in_new_same i i' p : inv_head i' = inv_head i → inv_contentdir i' = inv_contentdir i → in_new i dir p → in_new i' dir p.
  Proof using. unfold in_new, content_name. by intros -> ->. Qed.
  Lemma function_for_iff cs f : function_for S idx cs f ↔ ∃ ix, idx !! cs = Some ix ∧ th_function S ix = Some f.
  Proof using.
    unfold function_for, th_function. split.
    - intros (p & m & H & Hf). exists (p, m). split; [done|]. cbn [fst snd]. by destruct Hf as [-> |[-> ->]].
    - intros ([p m] & H & Hf). exists p, m. split; [done|]. cbn [fst snd] in Hf. destruct (ts_pronom S p); [by left|by right].
  Qed.

  Lemma loop_ok i0 N todo k n lines o o' n' lines' :
    th_loop E l T J S s idx dn orcs rnd k todo n lines o = (o', n', lines', SOk) →
    working E s N o → ext_rel i0 (ob_inv o) → Forall (λ p, lists (inv_manifest i0) p.2 p.1) todo → used n o →
    ∃ ops new, guarded_sops E (proper E) ops o ∧ sops_run E ops o = (o', SOk) ∧ lines' = lines ++ new ∧ ext_rel (ob_inv o) (ob_inv o') ∧
      (∀ q e, lists (inv_manifest (ob_inv o')) q e → lists (inv_manifest (ob_inv o)) q e ∨ in_new (ob_inv o') dir q) ∧
      sublist new.*1 todo.*1 ∧ (∀ c r, (c, r) ∈ new → dn !! c = None ∧ to_lower (tr_digest r) = tr_digest r ∧ (tr_error r = "" → ∃ q y, has s q (tr_digest r) y o' ∧ in_new (ob_inv o') dir q)) ∧
      ∀ cs p0 f, (cs, p0) ∈ todo → dn !! cs = None → function_for S idx cs f → ts_opens S p0 = true →
        ∃ x res, has s p0 cs x o' ∧ (cs, res) ∈ new ∧ outcome o' f (file_ext p0) x res.
  Proof using Hhex HE HT HJ Horcs.
    intros Hloop Hwk He Hall. revert k n lines o Hloop Hwk He.
    induction Hall as [|[cs p0] todo Hp0 _ IH]; intros k n lines o Hloop Hwk He Hu.
    { cbn [th_loop] in Hloop. injection Hloop as <- <- <-. exists [], []. rewrite app_nil_r. split_and!; try done; [by left|..].
      - intros c r H. by apply elem_of_nil in H.
      - intros c p f H. by apply elem_of_nil in H. }
    cbn [fst snd] in Hp0. cbn [th_loop] in Hloop.
    (* nothing is done for the first file *)
    assert (∀ n1, (n <= n1)%N → used n1 o) as Hmono.
    { intros n1 Hle q e H1 H2. destruct (Hu q e H1 H2) as (j & Hj & Hl). exists j. split; [lia|done]. }
    assert ((∀ f, dn !! cs = None → function_for S idx cs f → ts_opens S p0 = true → False) →
      th_loop E l T J S s idx dn orcs rnd (k + 1) todo n lines o = (o', n', lines', SOk) →
      ∃ ops new, guarded_sops E (proper E) ops o ∧ sops_run E ops o = (o', SOk) ∧ lines' = lines ++ new ∧ ext_rel (ob_inv o) (ob_inv o') ∧
        (∀ q e, lists (inv_manifest (ob_inv o')) q e → lists (inv_manifest (ob_inv o)) q e ∨ in_new (ob_inv o') dir q) ∧
        sublist new.*1 ((cs, p0) :: todo).*1 ∧ (∀ c r, (c, r) ∈ new → dn !! c = None ∧ to_lower (tr_digest r) = tr_digest r ∧ (tr_error r = "" → ∃ q y, has s q (tr_digest r) y o' ∧ in_new (ob_inv o') dir q)) ∧
        ∀ c p f, (c, p) ∈ (cs, p0) :: todo → dn !! c = None → function_for S idx c f → ts_opens S p = true →
          ∃ x res, has s p c x o' ∧ (c, res) ∈ new ∧ outcome o' f (file_ext p) x res) as Hskip.
    { intros Hno Hl. destruct (IH _ _ _ _ Hl Hwk He Hu) as (ops & new & H1 & H2 & H3 & H4 & H5 & H6 & H7 & H8). exists ops, new.
      split_and!; try done; [by apply sublist_cons|]. intros c p f [[= -> ->]|Hin]%elem_of_cons; [|by apply H8].
      intros Q1 Q2 Q3. by destruct (Hno f Q1 Q2 Q3). }
    destruct (dn !! cs) as [dm|] eqn:Hdn; [apply Hskip; [done|exact Hloop]|].
    destruct (idx !! cs) as [ix|] eqn:Hix.
    2:{ apply Hskip; [|exact Hloop]. intros f _ (ix & Q & _)%function_for_iff. by rewrite Hix in Q. }
    destruct (th_function S ix) as [f|] eqn:Hf.
    2:{ apply Hskip; [|exact Hloop]. intros f _ (ix' & Q & Q')%function_for_iff. rewrite Hix in Q. injection Q as <-. by rewrite Hf in Q'. }
    (* the content *)
    assert (∃ x, has s p0 cs x o) as [x0 Hx0].
    { pose proof (ext_rel_lists _ _ _ _ He Hp0) as Hl. destruct Hwk as ([fam Hk] & _). destruct (g_content _ _ _ _ (kp_good _ _ _ _ _ _ Hk) _ _ Hl) as (x & Hx & _).
      by exists x. }
    destruct (th_open S s (ob_inv o) cs p0 o) as [[[ext x]|]|] eqn:Hop; [| |done].
    2:{ apply Hskip; [|exact Hloop]. intros f' _ _ Ho. unfold th_open in Hop. rewrite Ho in Hop. destruct Hx0 as [Hx0 _]. by rewrite Hx0 in Hop. }
    assert (ts_opens S p0 = true → ext = file_ext p0 ∧ x = x0) as Hopened.
    { intros Ho. unfold th_open in Hop. rewrite Ho in Hop. destruct Hx0 as [Hx0 _]. rewrite Hx0 in Hop. by injection Hop as <- <-. }
    (* the line, once the object is [o1] *)
    assert (∀ ops1 o1 err file dg,
      th_loop E l T J S s idx dn orcs rnd (k + 1) todo (n + 1) (lines ++ [(cs, TRes (tc_ext T) err (tf_id f) file dg)]) o1 = (o', n', lines', SOk) →
      guarded_sops E (proper E) ops1 o → sops_run E ops1 o = (o1, SOk) → working E s N o1 → ext_rel (ob_inv o) (ob_inv o1) → used (n + 1) o1 →
      (∀ q e, lists (inv_manifest (ob_inv o1)) q e → lists (inv_manifest (ob_inv o)) q e ∨ in_new (ob_inv o1) dir q) →
      to_lower dg = dg →
      (match tf_run f ext x with
       | Some y => err = "" ∧ e_hash E (inv_alg (ob_inv o)) y = Some dg ∧ ∃ q, has s q dg y o1 ∧ in_new (ob_inv o1) dir q
       | None => err ≠ ""
       end) →
      ∃ ops new, guarded_sops E (proper E) ops o ∧ sops_run E ops o = (o', SOk) ∧ lines' = lines ++ new ∧ ext_rel (ob_inv o) (ob_inv o') ∧
        (∀ q e, lists (inv_manifest (ob_inv o')) q e → lists (inv_manifest (ob_inv o)) q e ∨ in_new (ob_inv o') dir q) ∧
        sublist new.*1 ((cs, p0) :: todo).*1 ∧ (∀ c r, (c, r) ∈ new → dn !! c = None ∧ to_lower (tr_digest r) = tr_digest r ∧ (tr_error r = "" → ∃ q y, has s q (tr_digest r) y o' ∧ in_new (ob_inv o') dir q)) ∧
        ∀ c p f, (c, p) ∈ (cs, p0) :: todo → dn !! c = None → function_for S idx c f → ts_opens S p = true →
          ∃ x res, has s p c x o' ∧ (c, res) ∈ new ∧ outcome o' f (file_ext p) x res) as Hline.
    { intros ops1 o1 err file dg Hl Hg1 Hr1 Hw1 He1 Hu1 Hm1 Hlo Hres. set (res := TRes (tc_ext T) err (tf_id f) file dg) in *.
      destruct (IH _ _ _ _ Hl Hw1 ltac:(by etrans) Hu1) as (ops & new & H1 & H2 & H3 & H4 & H5 & H6 & H7 & H8).
      exists (ops1 ++ ops), ((cs, res) :: new).
      assert (∀ p d z, has s p d z o1 → has s p d z o') as Hkeep.
      { intros p d z Hz. pose proof (sops_has E s p d z ops o1 H1 Hz) as Hz'. by rewrite H2 in Hz'. }
      split_and!.
      - by eapply guarded_sops_app.
      - by eapply sops_run_app.
      - by rewrite H3, <- app_assoc.
      - by etrans.
      - intros q e Hq. destruct (H5 q e Hq) as [Hq'|Hq']; [|by right]. destruct (Hm1 q e Hq') as [Hq''|Hq'']; [by left|right].
        eapply in_new_same; [apply (er_head _ _ H4)|apply (er_cdir _ _ H4)|done].
      - cbn [fmap list_fmap fst]. by apply sublist_skip.
      - intros c r [[= -> ->]|Hin]%elem_of_cons; [|by eapply H7]. split; [done|]. split; [done|]. unfold res. cbn [tr_error tr_digest]. intros ->.
        destruct (tf_run f ext x) as [y|]; [|done]. destruct Hres as (_ & _ & q & Q1 & Q2). exists q, y. split; [by apply Hkeep|].
        eapply in_new_same; [apply (er_head _ _ H4)|apply (er_cdir _ _ H4)|done].
      - intros c p f' [[= -> ->]|Hin]%elem_of_cons Q1 Q2 Q3.
        + apply function_for_iff in Q2 as (ix' & Q2 & Q4). rewrite Hix in Q2. injection Q2 as <-. rewrite Hf in Q4. injection Q4 as <-.
          destruct (Hopened Q3) as [-> ->]. exists x0, res. split; [|split; [left|]].
          * pose proof (sops_has E s p0 cs x0 ops1 o Hg1 Hx0) as Hx1. rewrite Hr1 in Hx1. by apply Hkeep.
          * unfold outcome. destruct (tf_run f (file_ext p0) x0) as [y|]; [|done]. destruct Hres as (Q5 & Q6 & q & Q7 & Q8).
            split; [done|]. split; [done|]. split; [by rewrite (er_alg _ _ H4), (er_alg _ _ He1)|]. exists q. split; [by apply Hkeep|].
            eapply in_new_same; [apply (er_head _ _ H4)|apply (er_cdir _ _ H4)|done].
        + destruct (H8 c p f' Hin Q1 Q2 Q3) as (z & r & R1 & R2 & R3). exists z, r. split; [done|]. split; [by right|done]. }
    destruct (tf_run f ext x) as [y|] eqn:Hrun.
    2:{ eapply (Hline [] o); try done; [apply Hmono; lia|by left]. }
    destruct (th_name T J (inv_head (ob_inv o)) (n + 1) (rnd k)) as [name|] eqn:Hname.
    2:{ unfold th_store in Hloop. rewrite Hname in Hloop. done. }
    pose proof Hwk as ([fam Hk] & Hsup & Hwr). pose proof (contiguous_is _ _ (g_contig _ _ _ _ (kp_good _ _ _ _ _ _ Hk))) as Hh.
    assert (inv_head (ob_inv o) = version_name (inv_padding (ob_inv o)) (N + 1)) as Hhead by (by rewrite (proj1 Hh), decide_False by lia).
    destruct (store_call E l T J dir (orcs k) (n + 1) (rnd k) y o name HE HJ HT ltac:(rewrite Hhead; apply version_name_plain) Hname)
      as (rest & g & area & file & Hst & Hmp & Hc & Hlast & _).
    rewrite Hst in Hloop. unfold th_add in Hloop. destruct (ob_add_reader E (orcs k) y [g] area o) as [o1 st] eqn:Hadd.
    assert (st ≠ SPanic) as Hnp by (intros ->; done).
    destruct (add_working E s Hhex N (orcs k) y g area _ o o1 st Hwk (Horcs k) Hmp Hc Hadd Hnp) as (-> & d & Hd & Hlow & Hmn & Htr & Hld & Hback).
    cbv zeta in Hmn, Htr, Hld, Hback. set (m := cpath (ob_inv o) (N + 1) (dir +:+ "/" +:+ rest)) in *. rewrite Hd in Hloop. cbn [default from_option id] in Hloop.
    assert (in_new (ob_inv o) dir m) as Hin.
    { exists rest. unfold m, cpath. rewrite Hhead. by rewrite <- !str_app_assoc. }
    assert (last (split_slash m) = Some (leaf T (n + 1))) as Hlm.
    { unfold m, cpath. do 3 apply last_comp. done. }
    assert (proper E (orcs k) (SAddReader y [g] area) o) as Hprop.
    { split; [done|]. split; intros mp Q; rewrite Hmp in Q; injection Q as <-; [done|]. intros e Hl. rewrite Hmn in Hl.
      destruct (Hu m e Hl Hin) as (j & Hj & Q). rewrite Hlm in Q. injection Q as Q%leaf_inj. lia. }
    pose proof (ef_ext _ _ _ _ (sop_effect E (orcs k) (SAddReader y [g] area) o)) as He1. cbn [sop_step] in He1. rewrite Hadd in He1. cbn [fst] in He1.
    pose proof (sop_working E s Hhex N (orcs k) (SAddReader y [g] area) o Hprop Hwk) as Hw1. cbn [sop_step] in Hw1. rewrite Hadd in Hw1. cbn [fst] in Hw1.
    assert (∀ q, in_new (ob_inv o1) dir q → in_new (ob_inv o) dir q) as Hin1.
    { intros q. apply in_new_same; symmetry; [apply (er_head _ _ He1)|apply (er_cdir _ _ He1)]. }
    assert (in_new (ob_inv o1) dir m) as Hin2.
    { eapply in_new_same; [apply (er_head _ _ He1)|apply (er_cdir _ _ He1)|done]. }
    eapply (Hline [HCall (orcs k) (SAddReader y [g] area)] o1 "" file d).
    - exact Hloop.
    - cbn [guarded_sops]. split; [done|]. cbn [sop_step]. by rewrite Hadd.
    - cbn [sops_run sop_step]. by rewrite Hadd.
    - done.
    - done.
    - intros q e Hq Hnew. destruct (Hback q e Hq) as [Hq'| ->]; [|by exists (n + 1)%N].
      destruct (Hu q e Hq' (Hin1 q Hnew)) as (j & Hj & Q). exists j. split; [lia|done].
    - intros q e Hq. destruct (Hback q e Hq) as [Hq'| ->]; [by left|by right].
    - done.
    - rewrite ?Hrun. split; [done|]. split; [done|]. exists m. split; [|done]. split; [|done].
      by rewrite Htr, apply_evs_app, apply_write, lookup_insert.
  Qed.
End loop.
