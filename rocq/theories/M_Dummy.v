(** DMLDummyRegressor and DMLDummyClassifier (utils/dummy_learners.py:4-35,
    38-79): every method that would train, configure or evaluate the learner
    raises AttributeError.  The values of the prediction methods, which raise as
    well, are never reached because no fitted dummy exists; they are empty here. *)
From Verif Require Export M_Nuis.

Definition dummy_learner (P : Type) : learner unit row P :=
  {| ln_clone := fun e => e; ln_set := fun _ _ => Err AttributeError; ln_fit := fun _ _ => Err AttributeError;
     ln_predict := fun _ _ => []; ln_proba := fun _ _ => []; ln_classes := fun _ => [] |}.
