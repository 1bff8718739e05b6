(** Sessions with descriptive metadata, for the examples of C70. *)
From Coq Require Import Ascii.
From stdpp Require Import base list strings gmap.
From Coq Require Import ZArith Lia.
From Verif Require Import GoStr PathModel InventoryModel ObjectModel InventorySpec ObjectSpec CrashSpec LoadModel AreaModel AreaSpec ValidateModel PublishSpec
  Fixtures Fixtures2 Fixtures3 Fixtures5 Fixtures8 Fixtures10 JsonlModel JsonlSpec MetafileModel MetafileSpec.

(** Two files on the disk, one of them with the id of the object in its name, one on the net; only texts in brackets can be decoded. *)
Definition bracketed (t : string) : bool := match str_head t with Some c => bool_decide (c = "{"%char ∨ c = "["%char) | None => false end.
Definition srcs : sources := Sources (λ n, if decide (n = "https://example.org/id:1/two.json") then Some "{two}" else None)
  (λ n, if decide (n = "/meta/id:1.JSON") then Some "{one}" else if decide (n = "/meta/list.json") then Some "[list]" else if decide (n = "/meta/note.txt") then Some "{text}" else None)
  (λ e d, if bracketed d then Some d else None).
Definition from_disk : murl := MUrl "" "meta/$ID.JSON" "meta/$ID.JSON".
Definition from_net : murl := MUrl "HTTPS" "/$ID/two.json" "https://example.org/$ID/two.json".
Definition a_list : murl := MUrl "file" "/meta/list.json" "file:///meta/list.json".
Definition nothing : murl := MUrl "" "" "".
(** A JSON object, known by its first letter. *)
Definition as_object (t : string) : option string := match t with String c r => if decide (c = "{"%char) then Some r else None | EmptyString => None end.
Definition marea : mstore := MStore "info.json" "area" "metadata" "extensions/NNNN-metafile".
Lemma marea_matching : matching [areas2] marea "meta/xml/info.json".
Proof.
  exact (matching_area areas2 "info.json" "metadata" "extensions/NNNN-metafile" "meta/xml" ltac:(done) ltac:(done) ltac:(by vm_compute)
    ltac:(apply clean_relb_true; by vm_compute) ltac:(apply clean_relb_true; by vm_compute)).
Qed.
Definition mext : mstore := MStore "info.json" "extension" "metadata" "extensions/NNNN-metafile".
Lemma mext_folder : in_folder aenv mext "extensions/NNNN-metafile/metadata/info.json".
Proof.
  refine (in_folder_file aenv "info.json" "metadata" "NNNN-metafile" _ _ _ _); [apply clean_relb_true; by vm_compute..|].
  by repeat constructor.
Qed.

(** Calls; their guards are checked. *)
Fixpoint dcallsb (E : env) (ops : list sop) (o : object) : option object :=
  match ops with
  | [] => Some o
  | op :: ops => if guardb E op o then match sop_step E dflt op o with (o', SOk) => dcallsb E ops o' | _ => None end else None
  end.
Lemma dcallsb_true E ops o o' : dcallsb E ops o = Some o' → calls E o o'.
Proof.
  revert o. induction ops as [|op ops IH]; intros o; cbn [dcallsb]; [intros [= <-]; constructor|].
  destruct (guardb E op o) eqn:Hg; [|done]. destruct (sop_step E dflt op o) as [o1 []] eqn:Hs; [|done..]. intros H.
  eapply (calls_more E dflt (OSimple op)); [done|by apply guardb_true|exact Hs|done|by apply IH].
Qed.
Lemma plain_end E o : guarded_end E (proper E) (λ _, True) dflt (HDone []) o.
Proof.
  cbn [guarded_end]. split; [done|]. unfold after_ok. destruct (if ob_echo o then _ else _) as [o1 []]; [|done..]. split; [done|].
  destruct (sops_run E [] o1) as [o2 []]; [|done..]. by destruct (store_inventory E true false o2) as [o3 []].
Qed.
(** A session: the handle that was closed, and the metadata. *)
Definition handle (W : sources) (E : env) (l : list subpaths) (M : mstore) (u : murl) (ops : list sop) (i : inventory) : option (object * object * object * option string) :=
  match ob_start "2024-01-01T00:00:00Z" "msg" "me" "mailto:me" false (open_object i) with
  | (o1, SOk) =>
      match mf_before W E l M dflt o1 (mf_new (Some u)) with
      | (o2, _, SOk) =>
          o3 ← dcallsb E ops o2;
          match ob_end E dflt (HDone []) o3 with
          | (o4, SOk) =>
              match ob_close E dflt o4 with
              | (o5, SOk) => Some (o1, o3, o5, if decide (u_path u = "") then None else mf_fetch W (inv_id i) u)
              | _ => None
              end
          | _ => None
          end
      | _ => None
      end
  | _ => None
  end.
Definition drunb (W : sources) (E : env) (l : list subpaths) (M : mstore) (q : string) (u : murl) (ops : list sop) (s : storage) (i : inventory) : option (storage * inventory * option string) :=
  '(o1, o3, o5, given) ← handle W E l M u ops i;
  let s' := apply_evs (ob_trace o5) s in
  if inv_modified (ob_inv o3) && forallb (λ v : string * version, bool_decide (is_Some (inv_versions i !! v.1)) ||
       (negb (bool_decide (given = None)) && bool_decide (v.1 = inv_head (ob_inv o1))) || bool_decide (s' !! place (ob_inv o5) v.1 q = None)) (map_to_list (inv_versions (ob_inv o5)))
  then Some (s', ob_inv o5, given) else None.
Lemma drunb_true W E l M q u ops s i s' i' given : drunb W E l M q u ops s i = Some (s', i', given) → dsession W E l M q s i s' i' given.
Proof.
  unfold drunb, handle. destruct (ob_start _ _ _ _ _ _) as [o1 []] eqn:E1; [|done..]. destruct (mf_before _ _ _ _ _ _ _) as [[o2 x] []] eqn:E2; [|done..].
  destruct (dcallsb E ops o2) as [o3|] eqn:E3; [|done]. cbn [mbind option_bind]. destruct (ob_end E dflt (HDone []) o3) as [o4 []] eqn:E4; [|done..].
  destruct (ob_close E dflt o4) as [o5 []] eqn:E5; [|done..]. cbn [mbind option_bind]. cbv zeta. destruct (inv_modified (ob_inv o3)) eqn:E6; [|done]. cbn [andb].
  destruct (forallb _ _) eqn:E7; [|done]. intros [= <- <- <-].
  eapply DSession; [exact E1|exact E2|done|exact dflt_ok|by eapply dcallsb_true|exact E6|apply plain_end|exact E4|exact E5|done|done|].
  intros v [y Hy] Hno Hor. rewrite forallb_forall in E7. specialize (E7 (v, y)). cbn [fst] in E7.
  assert (In (v, y) (map_to_list (inv_versions (ob_inv o5)))) as Hin by (by apply elem_of_list_In, elem_of_map_to_list).
  specialize (E7 Hin). rewrite (bool_decide_eq_false_2 (is_Some (inv_versions i !! v))) in E7 by (rewrite Hno; by intros []). cbn [orb] in E7.
  apply orb_prop in E7 as [E7|E7]; [|by apply bool_decide_eq_true in E7]. apply andb_prop in E7 as [E8 E9]. apply bool_decide_eq_true in E9.
  destruct Hor as [Hg|Hg]; [|done]. rewrite bool_decide_eq_true_2 in E8 by done. done.
Qed.
