(** JSON catalogs with their memory: messages are pointers to structs, their
    translations are pointers to maps.  The contents are those of JsonModel;
    this file adds which of them are shared. *)
From Coq Require Import String Ascii List ZArith Bool.
From Verif Require Import Base StrModel PoStrModel CldrModel GettextModel JsonModel.
Import ListNotations.
Open Scope Z_scope.

(** catalog/json.go:289-297 (JSONMessage) in memory; a nil map is None *)
Record mcell : Type := MCell { mc_comment : bytes; mc_context : bytes; mc_tr : option nat }.
Record heap : Type := Heap { h_msgs : list mcell; h_maps : list catmap }.
Fixpoint update {A} (l : list A) (i : nat) (f : A -> A) : list A :=
  match l, i with
  | [], _ => []
  | x :: l', O => f x :: l'
  | x :: l', S i' => x :: update l' i' f
  end.

(** catalog/json.go:300-306 (Clone); maps.Clone of nil is nil *)
Definition clone (h : heap) (a : nat) : res (heap * nat) :=
  match nth_error (h_msgs h) a with
  | None => Panic
  | Some m =>
      match mc_tr m with
      | None => Ok (Heap (h_msgs h ++ [MCell (mc_comment m) (mc_context m) None]) (h_maps h), length (h_msgs h))
      | Some p =>
          match nth_error (h_maps h) p with
          | None => Panic
          | Some t => Ok (Heap (h_msgs h ++ [MCell (mc_comment m) (mc_context m) (Some (length (h_maps h)))]) (h_maps h ++ [t]),
                          length (h_msgs h))
          end
      end
  end.

Record hcat (tag : Type) : Type := HCat {
  hc_lang : tag; hc_domain : bytes; hc_rules : rule_set; hc_map : list (bytes * list (bytes * nat)) }.
Arguments HCat {tag}. Arguments hc_lang {tag}. Arguments hc_domain {tag}.
Arguments hc_rules {tag}. Arguments hc_map {tag}.

Section Heap.
  Variable tag : Type.
  Variable order : list category.

  (** catalog/json.go:153-184 (setMessage) *)
  Definition h_set_message (h : heap) (c : hcat tag) (key : bytes) (src : option nat) : res (heap * hcat tag) :=
    if is_nil key then Err
    else match src with
    | None => Err
    | Some a =>
        match nth_error (h_msgs h) a with
        | None => Panic
        | Some m =>
            if negb (is_nil (mc_context m)) && negb (has_suffix key (bs "_" ++ mc_context m)) then Err
            else
              do hb <- clone h a ;
              let (h1, b) := hb : heap * nat in
              do hp <- (match nth_error (h_msgs h1) b with
                        | None => Panic
                        | Some m1 =>
                            match mc_tr m1 with
                            | Some p => Ok (h1, p)
                            | None => Ok (Heap (update (h_msgs h1) b (fun x => MCell (mc_comment x) (mc_context x) (Some (length (h_maps h1)))))
                                               (h_maps h1 ++ [[]]), length (h_maps h1))
                            end
                        end) ;
              let (h2, p) := hp : heap * nat in
              match nth_error (h_maps h2) p with
              | None => Panic
              | Some t =>
                  match cat_get t Other with
                  | None => Err
                  | Some _ =>
                      let h3 := Heap (h_msgs h2) (update (h_maps h2) p (apply_categories order (rs_categories (hc_rules c)))) in
                      let ctx := mc_context m in
                      let inner := match map_get (hc_map c) ctx with Some l => l | None => [] end in
                      Ok (h3, HCat (hc_lang c) (hc_domain c) (hc_rules c) (map_set (hc_map c) ctx (map_set inner key b)))
                  end
              end
        end
    end.
  Fixpoint h_set_messages (h : heap) (c : hcat tag) (l : list (bytes * option nat)) : res (heap * hcat tag) :=
    match l with
    | [] => Ok (h, c)
    | (k, a) :: l' => do hc <- h_set_message h c k a ; let (h', c') := hc : heap * hcat tag in h_set_messages h' c' l'
    end.
  (** catalog/json.go:70-87 (NewJSONCatalogWithMessages) *)
  Definition h_new_json_with (h : heap) (lang : tag) (domain : bytes) (rs : rule_set) (l : list (bytes * option nat)) : res (heap * hcat tag) :=
    h_set_messages h (HCat lang domain rs []) l.

  (** catalog/json.go:130-149 (getTranslation) *)
  Definition h_translation (h : heap) (c : hcat tag) (ctx key : bytes) (cat : category) : res (bytes + lookup_error tag) :=
    let key := if is_nil ctx then key else key ++ bs "_" ++ ctx in
    match map_get (hc_map c) ctx with
    | None => Ok (inr (MissingContext (hc_lang c) (hc_domain c) ctx))
    | Some ms =>
        match map_get ms key with
        | None => Ok (inr (MissingMessage (hc_lang c) (hc_domain c) ctx key))
        | Some a =>
            match nth_error (h_msgs h) a with
            | None => Panic
            | Some m =>
                do t <- (match mc_tr m with
                         | None => Ok []
                         | Some p => match nth_error (h_maps h) p with Some t => Ok t | None => Panic end
                         end) ;
                match cat_get t cat with
                | Some (x :: v) => Ok (inl (x :: v))
                | _ => Ok (inr (MissingTranslation (hc_lang c) (hc_domain c) ctx key (cat_num cat)))
                end
            end
        end
    end.

  (** catalog/json.go:118-128 (Messages) *)
  Fixpoint h_copy (h : heap) (l : list (bytes * nat)) (acc : list (bytes * nat)) : res (heap * list (bytes * nat)) :=
    match l with
    | [] => Ok (h, acc)
    | (k, a) :: l' => do hb <- clone h a ; let (h', b) := hb : heap * nat in h_copy h' l' (map_set acc k b)
    end.
  Fixpoint h_copies (h : heap) (l : list (bytes * list (bytes * nat))) (acc : list (bytes * nat)) : res (heap * list (bytes * nat)) :=
    match l with
    | [] => Ok (h, acc)
    | (_, ms) :: l' => do ha <- h_copy h ms acc ; let (h', acc') := ha : heap * list (bytes * nat) in h_copies h' l' acc'
    end.
  Definition h_messages (h : heap) (c : hcat tag) : res (heap * list (bytes * nat)) := h_copies h (hc_map c) [].
End Heap.
