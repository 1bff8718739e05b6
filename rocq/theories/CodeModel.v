(** The report about one object: /repo/pkg/ocfl/objectbase.go:68-82 and /repo/pkg/ocfl/inventorybase.go:171-178 addValidationError and
    addValidationWarning, /repo/gocfl/cmd/validate.go:118-145.  Only executable definitions. *)
From stdpp Require Import base list strings gmap.
From Verif Require Import GoStr ValidateModel ReportModel.

(** addValidationError, addValidationWarning with GetValidationError, AppendDescription and AppendContext: what is appended to the list of
    findings.  [version] is the version of the object.  The text of the table, the formatted arguments and the context are any functions of the finding. *)
Definition record_finding (version : string) (text args ctx : finding → string) (f : finding) : verr :=
  Verr (validation_code version (f_code f)) (text f) (args f) (ctx f).
(** doValidate for one object, lines 124-145: the findings are shown only if the check ended without error; [None] is no report (an error
    message or a panic). *)
Definition object_report (version : string) (text args ctx : finding → string) (srt : list verr → list verr) (v : verdict) :
    option (list (string * string * string * string) * option nat) :=
  match v with
  | VDone fs => Some (show_status srt (record_finding version text args ctx <$> fs))
  | _ => None
  end.
