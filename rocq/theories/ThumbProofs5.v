(** Proofs about thumbnails that are kept in the folder of the extension. *)
From Coq Require Import Ascii.
From stdpp Require Import base list strings gmap.
From Coq Require Import ZArith Lia.
From Verif Require Import GoStr PathModel PathProofs InventoryModel ObjectModel InventorySpec InventoryProofs ClaimsInventory2 LookupProofs AddProofs ObjectSpec ObjectProofs CrashSpec CrashProofs LoadModel LoadProofs
  AreaModel AreaSpec AreaProofs ValidateModel PublishSpec PublishProofs PublishProofs2 PublishProofs3 PublishProofs4 JsonlModel JsonlSpec JsonlProofs JsonlProofs2
  MetafileModel MetafileSpec MetafileProofs MigrateModel LayoutModel ThumbModel ThumbSpec ThumbProofs ThumbProofs2 ThumbProofs3.

Section extension.
  Context (E : env) (s : storage) (l : list subpaths) (T : tconf) (HT : suffix_name (tc_ext T)) (J : jstore) (HJ : js_type J = "extension")
    (Hfold : clean_rel (js_folder J)) (Hstor : clean_rel (js_storage J)) (S : tsur) (idx : gmap string (string * string)) (dn : gmap string tmeta)
    (orcs : nat → oracle) (rnd : nat → N).

  (** Events that write thumbnails with numbers above [n]. *)
  Definition thumb_event (h : string) (n : N) (e : ev) : Prop :=
    ∃ j rest, (n < j)%N ∧ last (split_slash rest) = Some (leaf T j) ∧ ev_path e = js_folder J +:+ "/" +:+ js_storage J +:+ "/" +:+ h +:+ "/" +:+ rest.

  Lemma loop_extension h todo k n lines o o' n' lines' :
    th_loop E l T J S s idx dn orcs rnd k todo n lines o = (o', n', lines', SOk) → inv_head (ob_inv o) = h → CrashSpec.plain_name h →
    ob_inv o' = ob_inv o ∧ ∃ evs new, ob_trace o' = ob_trace o ++ evs ∧ Forall (thumb_event h n) evs ∧ lines' = lines ++ new ∧
      ∀ cs p0 x f, (cs, p0) ∈ todo → dn !! cs = None → function_for S idx cs f → ts_opens S p0 = true → ¬ below (js_folder J) p0 →
        apply_evs (ob_trace o) s !! p0 = Some x →
        ∃ res, (cs, res) ∈ new ∧ tr_id res = tf_id f ∧
          match tf_run f (file_ext p0) x with
          | Some y => tr_error res = "" ∧ (∃ rest, tr_file res = js_storage J +:+ "/" +:+ h +:+ "/" +:+ rest) ∧
                      apply_evs (ob_trace o') s !! (js_folder J +:+ "/" +:+ tr_file res) = Some y
          | None => tr_error res ≠ ""
          end.
  Proof using HT HJ Hfold Hstor.
    revert k n lines o. induction todo as [|[cs p0] todo IH]; intros k n lines o Hloop Hh Hhp; cbn [th_loop] in Hloop.
    { injection Hloop as <- <- <-. split; [done|]. exists [], []. rewrite !app_nil_r. split_and!; try done. intros cs p0 x f H. by apply elem_of_nil in H. }
    assert ((∀ f x, dn !! cs = None → function_for S idx cs f → ts_opens S p0 = true → apply_evs (ob_trace o) s !! p0 = Some x → False) →
      th_loop E l T J S s idx dn orcs rnd (k + 1) todo n lines o = (o', n', lines', SOk) →
      ob_inv o' = ob_inv o ∧ ∃ evs new, ob_trace o' = ob_trace o ++ evs ∧ Forall (thumb_event h n) evs ∧ lines' = lines ++ new ∧
      ∀ c p x f, (c, p) ∈ (cs, p0) :: todo → dn !! c = None → function_for S idx c f → ts_opens S p = true → ¬ below (js_folder J) p →
        apply_evs (ob_trace o) s !! p = Some x →
        ∃ res, (c, res) ∈ new ∧ tr_id res = tf_id f ∧
          match tf_run f (file_ext p) x with
          | Some y => tr_error res = "" ∧ (∃ rest, tr_file res = js_storage J +:+ "/" +:+ h +:+ "/" +:+ rest) ∧
                      apply_evs (ob_trace o') s !! (js_folder J +:+ "/" +:+ tr_file res) = Some y
          | None => tr_error res ≠ ""
          end) as Hskip.
    { intros Hno Hl. destruct (IH _ _ _ _ Hl Hh Hhp) as (H1 & evs & new & H2 & H3 & H4 & H5). split; [done|]. exists evs, new. split_and!; try done.
      intros c p x f [[= -> ->]|Hin]%elem_of_cons; [|by apply H5]. intros Q1 Q2 Q3 _ Q5. by destruct (Hno f x Q1 Q2 Q3 Q5). }
    destruct (dn !! cs) as [dm|] eqn:Hdn; [apply Hskip; [done|exact Hloop]|].
    destruct (idx !! cs) as [ix|] eqn:Hix.
    2:{ apply Hskip; [|exact Hloop]. intros f x _ (ix & Q & _)%function_for_iff. by rewrite Hix in Q. }
    destruct (th_function S ix) as [f|] eqn:Hf.
    2:{ apply Hskip; [|exact Hloop]. intros f x _ (ix' & Q & Q')%function_for_iff. rewrite Hix in Q. injection Q as <-. by rewrite Hf in Q'. }
    destruct (th_open S s (ob_inv o) cs p0 o) as [[[ext x]|]|] eqn:Hop; [| |done].
    2:{ apply Hskip; [|exact Hloop]. intros f' x _ _ Ho Hx. unfold th_open in Hop. by rewrite Ho, Hx in Hop. }
    assert (∀ x0, ts_opens S p0 = true → apply_evs (ob_trace o) s !! p0 = Some x0 → ext = file_ext p0 ∧ x = x0) as Hopened.
    { intros x0 Ho Hx. unfold th_open in Hop. rewrite Ho, Hx in Hop. by injection Hop as <- <-. }
    assert (∀ evs1 o1 err file dg,
      th_loop E l T J S s idx dn orcs rnd (k + 1) todo (n + 1) (lines ++ [(cs, TRes (tc_ext T) err (tf_id f) file dg)]) o1 = (o', n', lines', SOk) →
      ob_inv o1 = ob_inv o → ob_trace o1 = ob_trace o ++ evs1 → Forall (thumb_event h n) evs1 →
      (match tf_run f ext x with
       | Some y => err = "" ∧ (∃ rest, file = js_storage J +:+ "/" +:+ h +:+ "/" +:+ rest ∧ last (split_slash rest) = Some (leaf T (n + 1))) ∧
                   apply_evs (ob_trace o1) s !! (js_folder J +:+ "/" +:+ file) = Some y
       | None => err ≠ ""
       end) →
      ob_inv o' = ob_inv o ∧ ∃ evs new, ob_trace o' = ob_trace o ++ evs ∧ Forall (thumb_event h n) evs ∧ lines' = lines ++ new ∧
      ∀ c p x f, (c, p) ∈ (cs, p0) :: todo → dn !! c = None → function_for S idx c f → ts_opens S p = true → ¬ below (js_folder J) p →
        apply_evs (ob_trace o) s !! p = Some x →
        ∃ res, (c, res) ∈ new ∧ tr_id res = tf_id f ∧
          match tf_run f (file_ext p) x with
          | Some y => tr_error res = "" ∧ (∃ rest, tr_file res = js_storage J +:+ "/" +:+ h +:+ "/" +:+ rest) ∧
                      apply_evs (ob_trace o') s !! (js_folder J +:+ "/" +:+ tr_file res) = Some y
          | None => tr_error res ≠ ""
          end) as Hline.
    { intros evs1 o1 err file dg Hl Hi1 Ht1 Hev1 Hres. set (res := TRes (tc_ext T) err (tf_id f) file dg) in *.
      destruct (IH _ _ _ _ Hl ltac:(by rewrite Hi1) Hhp) as (H1 & evs & new & H2 & H3 & H4 & H5). split; [by rewrite H1|].
      exists (evs1 ++ evs), ((cs, res) :: new). split_and!.
      - by rewrite H2, Ht1, app_assoc.
      - apply Forall_app. split; [done|]. eapply Forall_impl; [exact H3|]. intros e (j & rest & Q1 & Q2 & Q3). exists j, rest. split; [lia|done].
      - by rewrite H4, <- app_assoc.
      - intros c p z g [[= -> ->]|Hin]%elem_of_cons Q1 Q2 Q3 Q4 Q5.
        + apply function_for_iff in Q2 as (ix' & Q2 & Q6). rewrite Hix in Q2. injection Q2 as <-. rewrite Hf in Q6. injection Q6 as <-.
          destruct (Hopened z Q3 Q5) as [-> ->]. exists res. split; [left|]. split; [done|].
          destruct (tf_run f (file_ext p0) z) as [y|]; [|done]. destruct Hres as (R1 & (rest & R2 & R3) & R4). split; [done|]. split; [by exists rest|].
          cbn [tr_file res]. rewrite H2, apply_evs_app, apply_evs_other; [done|]. eapply Forall_impl; [exact H3|]. intros e (j & rest' & P1 & P2 & P3) He.
          rewrite P3, R2 in He. do 2 (apply str_app_inv_l in He). do 4 (apply str_app_inv_l in He). subst rest'. rewrite R3 in P2. injection P2 as P2%leaf_inj. lia.
        + destruct (H5 c p z g Hin Q1 Q2 Q3 Q4) as (r & R1 & R2); [|exists r; split; [by right|done]].
          rewrite Ht1, apply_evs_app, apply_evs_other; [done|]. eapply Forall_impl; [exact Hev1|]. intros e (j & rest & _ & _ & P3) He.
          apply Q4. rewrite <- He, P3. by eexists. }
    destruct (tf_run f ext x) as [y|] eqn:Hrun.
    2:{ eapply (Hline [] o); try done. by rewrite app_nil_r. }
    unfold th_store in Hloop. rewrite HJ, Hh in Hloop. destruct (th_name T J h (n + 1) (rnd k)) as [name|] eqn:Hname; [|done].
    destruct (name_parts _ _ _ _ _ _ Hname HT) as (rest & -> & Hr & Hlast). unfold th_sub in Hloop. rewrite HJ in Hloop.
    change (if decide ("extension" = "area") then "thumbnails" else js_storage J) with (js_storage J) in Hloop.
    change (to_lower "extension") with "extension" in Hloop.
    rewrite (decide_False (P := "extension" = "area")), (decide_False (P := "extension" = "path")), (decide_True (P := "extension" = "extension")) in Hloop by done.
    assert (clean_rel (js_storage J +:+ "/" +:+ h +:+ "/" +:+ rest)) as Hc.
    { apply clean_rel_app; [done|]. apply clean_rel_app; [by apply clean_rel_plain|done]. }
    rewrite (join_two (js_folder J) _ Hfold Hc) in Hloop.
    eapply (Hline (write_file (js_folder J +:+ "/" +:+ js_storage J +:+ "/" +:+ h +:+ "/" +:+ rest) y)); [exact Hloop|done|done| |].
    - repeat constructor; (exists (n + 1)%N, rest; split; [lia|done]).
    - rewrite ?Hrun. split; [done|]. split; [by exists rest|]. unfold emit. cbn [ob_trace]. by rewrite apply_evs_app, apply_write, lookup_insert.
  Qed.

  Context (Z : codec) (L : printer tres) (w : vorder) (Hw : vorder_ok w) (Hname : str_mem slash (js_name J) = false).
  Lemma after_extension orc o o' x' : CrashSpec.plain_name (inv_head (ob_inv o)) →
    (∀ p d, lists (inv_manifest (ob_inv o)) p d → ¬ below (js_folder J) p) →
    th_metadata Z L w l T J th_new (ob_inv o) (apply_evs (ob_trace o) s) = Some dn →
    th_after Z L E l T J S w s (Some idx) orc orcs rnd o th_new = (o', x', SOk) →
    ob_inv o' = ob_inv o ∧ (∀ p, ¬ below (js_folder J) p → apply_evs (ob_trace o') s !! p = apply_evs (ob_trace o) s !! p) ∧
    ∃ lines, th_buf x' !! inv_head (ob_inv o) = Some lines ∧
      ∀ cs p ps x f, inv_manifest (ob_inv o) !! cs = Some (p :: ps) → dn !! cs = None → function_for S idx cs f → ts_opens S p = true →
        apply_evs (ob_trace o) s !! p = Some x →
        ∃ res, (cs, res) ∈ lines ∧ tr_id res = tf_id f ∧
          match tf_run f (file_ext p) x with
          | Some y => tr_error res = "" ∧ apply_evs (ob_trace o') s !! (js_folder J +:+ "/" +:+ tr_file res) = Some y
          | None => tr_error res ≠ ""
          end.
  Proof using HT HJ Hfold Hstor Hw Hname.
    intros Hhp Hout Hmd Hafter. unfold th_after in Hafter. set (x1 := ThSt _ _) in Hafter. set (n0 := default 0%N _) in Hafter.
    assert (th_metadata Z L w l T J x1 (ob_inv o) (apply_evs (ob_trace o) s) = Some dn) as Hmd'.
    { rewrite <- Hmd. unfold th_metadata. generalize (∅ : gmap string tmeta). generalize (vo w 1 (inv_versions (ob_inv o))).*1.
      assert (th_buf x1 = th_buf th_new) as Hx by (unfold x1, th_new; cbn [th_buf]; apply delete_empty). clear -Hx.
      intros vs. induction vs as [|v vs IH]; intros r; [done|]. cbn [th_versions]. rewrite Hx.
      destruct (match th_buf th_new !! v with Some lines => _ | None => _ end); [|apply IH]. destruct (th_lines _ _ _ _ _ _ _); [apply IH|done]. }
    rewrite Hmd' in Hafter. clear Hmd Hmd'.
    destruct (th_loop E l T J S s idx dn orcs rnd 0 (th_files w (ob_inv o)) n0 [] o) as [[[o1 n1] lines] st1] eqn:Hloop. destruct st1; [|done..].
    destruct (loop_extension _ _ _ _ _ _ _ _ _ Hloop eq_refl Hhp) as (Hi1 & evs & new & Ht1 & Hev & -> & Hmade). rewrite app_nil_l in *.
    destruct (write_jsonl Z E l J orc _ o1) as [o2 st2] eqn:Hwj. injection Hafter as -> <- ->.
    assert (∃ data nm, str_mem slash nm = false ∧ o' = emit (write_file (js_folder J +:+ "/" +:+ js_storage J +:+ "/" +:+ nm) data) o1) as (data & nm & Hnm & ->).
    { unfold write_jsonl, write_target in Hwj. destruct (compress_ext (js_compress J)) as [ext|] eqn:Hx; [|done]. apply compress_ext_slash in Hx as Hes.
      rewrite HJ in Hwj. change (to_lower "extension") with "extension" in Hwj.
      rewrite (decide_False (P := "extension" = "area")), (decide_False (P := "extension" = "path")), (decide_True (P := "extension" = "extension")) in Hwj by done.
      assert (str_mem slash (inv_head (ob_inv o1)) = false) as Hhs by (rewrite Hi1; apply Hhp).
      pose proof (jsonl_name_plain (js_name J) (inv_head (ob_inv o1)) ext Hname Hhs Hes) as Hp. set (nm := jsonl_name _ _ _) in *.
      assert (clean_rel (js_storage J +:+ "/" +:+ nm)) as Hc by (apply clean_rel_app; [done|by apply clean_rel_plain]).
      rewrite (trim_clean _ Hc), (join_two (js_folder J) _ Hfold Hc) in Hwj. destruct (repack Z _ _) as [data|]; [|done]. apply (f_equal fst) in Hwj. cbn [fst] in Hwj.
      exists data, nm. split; [apply Hp|done]. }
    split; [done|]. split.
    { intros p Hp. unfold emit. cbn [ob_trace]. rewrite apply_evs_app, apply_evs_other; [|repeat constructor; cbn [ev_path]; intros <-; apply Hp; by eexists].
      rewrite Ht1, apply_evs_app, apply_evs_other; [done|]. eapply Forall_impl; [exact Hev|]. intros e (j & rest & _ & _ & P3) He. apply Hp. rewrite <- He, P3. by eexists. }
    exists new. cbn [th_buf]. split; [apply lookup_insert|]. intros cs p ps x f Hm Hd Hf Ho Hx.
    assert ((cs, p) ∈ th_files w (ob_inv o)) as Hin by (apply th_files_in; [done|by exists ps]).
    assert (¬ below (js_folder J) p) as Hb by (apply (Hout p cs); eexists; split; [exact Hm|left]).
    destruct (Hmade cs p x f Hin Hd Hf Ho Hb Hx) as (res & R1 & R2 & R3). exists res. split; [done|]. split; [done|].
    destruct (tf_run f (file_ext p) x) as [y|]; [|done]. destruct R3 as (R3 & (rest & R4) & R5). split; [done|].
    unfold emit. cbn [ob_trace]. rewrite apply_evs_app, apply_evs_other; [done|].
    assert (js_folder J +:+ "/" +:+ js_storage J +:+ "/" +:+ nm ≠ js_folder J +:+ "/" +:+ tr_file res) as Hne.
    { rewrite R4. intros He. do 4 (apply str_app_inv_l in He). subst nm. by rewrite str_mem_app, str_mem_app, orb_true_r in Hnm. }
    repeat constructor; cbn [ev_path]; done.
  Qed.
End extension.
