(** Model of profiles of graphs: profilers/graph_profiler.py, GraphProfiler.__init__ (31-65), update (195-224), the update and get
    functions (228-507), base_column_profilers.py, _perform_property_calcs (97-122).

    A graph of networkx is its nodes in the order they were added and its edges with their attributes in the order of iteration.
    Values of attributes are exact numbers, or [None] for what [float] does not accept.  Sets are listed in an order given by [enum].
    The fits of scipy, its moments and the histograms of numpy are functions given: [fits data] lists, for the candidates in order,
    the name, the fitted parameters and the negative log-likelihood.  Reading attributes of edges that differ in number raises
    (ValueError with current versions of numpy, TypeError with older ones).  Times are left out. *)
From Coq Require Import ZArith QArith.
From Verif Require Import PyCommon PyDict PyString ListFacts.
Local Open Scope nat_scope.
Local Open Scope string_scope.
Local Open Scope list_scope.

Definition attrs := dict string (option Q).

Section Graph.
  Context {N : Type} {EN : EqDecB N}.
  Definition edge := (N * N * attrs)%type.
  Record graph := { nodes : list N; edges : list edge }.
  Variable enum : list string -> list string.
  Variable fits : list Q -> list (string * list Q * Q).
  Variable moments : string -> Q -> Q * Q.
  Variable hist : list Q -> list nat * list Q.

  (** [graph.degree[node]]: a loop counts twice *)
  Definition is_end (n : N) (m : N) : nat := if eqb n m then 1 else 0.
  Definition degree (g : graph) (n : N) : nat :=
    fold_right (fun e t => is_end (fst (fst e)) n + is_end (snd (fst e)) n + t) 0 (edges g).
  (** _get_avg_node_degree (353-359) *)
  Definition avg_degree (g : graph) (num_nodes : nat) : Q :=
    Qdiv (inject_Z (Z.of_nat (fold_left (fun t n => t + degree g n) (nodes g) 0))) (inject_Z (Z.of_nat num_nodes)).

  (** [nx.connected_components]: for each node not yet seen, all nodes connected to it *)
  Fixpoint conn (es : list edge) (u v : N) : bool :=
    match es with
    | [] => eqb u v
    | (a, b, _) :: r => (conn r u v || (conn r u a && conn r b v) || (conn r u b && conn r a v))%bool
    end.
  Fixpoint comps (g : graph) (seen todo : list N) : list (list N) :=
    match todo with
    | [] => []
    | v :: r => if existsb (fun s => conn (edges g) s v) seen then comps g seen r
                else filter (conn (edges g) v) (nodes g) :: comps g (seen ++ [v]) r
    end.
  (** The first of [sorted(..., key=len, reverse=True)], which is stable *)
  Definition largest (l : list (list N)) : list N := fold_left (fun best c => if length best <? length c then c else best) (tl l) (hd [] l).
  (** [graph.subgraph(c).size()] *)
  Definition edges_within (g : graph) (c : list N) : nat :=
    length (filter (fun e : edge => lmem c (fst (fst e)) && lmem c (snd (fst e)))%bool (edges g)).
  (** _get_global_max_component_size (361-368) *)
  Definition max_component (g : graph) : nat := edges_within g (largest (comps g [] (nodes g))).

  (** _find_all_attributes (492-498) *)
  Definition all_attributes (g : graph) : result (list string) :=
    match edges g with
    | [] => Ok (enum [])
    | e :: r => if forallb (fun x : edge => length (snd x) =? length (snd e)) r
                then Ok (enum (distinct (flat_map (fun x : edge => dkeys (snd x)) (edges g)))) else Err ValueError
    end.
  (** [float(x).is_integer()] *)
  Definition is_integer (q : Q) : bool := Pos.eqb (Qden (Qred q)) 1.
  Fixpoint has_integer (a : string) (es : list edge) : result bool :=
    match es with
    | [] => Ok false
    | e :: r =>
        match dget (snd e) a with
        | None => Err KeyError
        | Some None => Err ValueError
        | Some (Some q) => if is_integer q then Ok true else has_integer a r
        end
    end.
  (** _get_categorical_and_continuous_attributes (467-486) *)
  Fixpoint sort_attributes (l : list string) (g : graph) : result (list string * list string) :=
    match l with
    | [] => Ok ([], [])
    | a :: r =>
        bind (has_integer a (edges g)) (fun c =>
        bind (sort_attributes r g) (fun cc => Ok (if c then (a :: fst cc, snd cc) else (fst cc, a :: snd cc))))
    end.
  Definition cat_cont (g : graph) : result (list string * list string) := bind (all_attributes g) (fun l => sort_attributes l g).

  (** _attribute_data_as_list (500-506), and the conversion to numbers in what follows *)
  Fixpoint data_of (a : string) (es : list edge) : result (list Q) :=
    match es with
    | [] => Ok []
    | e :: r =>
        match dget (snd e) a with
        | None => Err KeyError
        | Some None => Err TypeError
        | Some (Some q) => bind (data_of a r) (fun l => Ok (q :: l))
        end
    end.

  Record fitted := { name : string; scale : Q; properties : list Q; mean : list Q; variance : list Q }.
  (** [best_mle = 1000]; [if mle <= best_mle] *)
  Definition better (best : option (string * list Q) * Q) (c : string * list Q * Q) : option (string * list Q) * Q :=
    if Qle_bool (snd c) (snd best) then (Some (fst c), snd c) else best.
  Definition best_fit (l : list (string * list Q * Q)) : result fitted :=
    match fold_left better l (None, inject_Z 1000) with
    | (None, _) => Err GenericException
    | (Some (n, ps), mle) =>
        Ok {| name := n; scale := mle; properties := ps; mean := map (fun x => fst (moments n x)) ps;
              variance := map (fun x => snd (moments n x)) ps |}
    end.
  (** _get_continuous_distribution (370-444), _get_categorical_distribution (446-465) *)
  Fixpoint continuous (cont l : list string) (g : graph) : result (dict string (option fitted)) :=
    match l with
    | [] => Ok []
    | a :: r =>
        bind (if lmem cont a then bind (data_of a (edges g)) (fun d => bind (best_fit (fits d)) (fun f => Ok (Some f))) else Ok None) (fun x =>
        bind (continuous cont r g) (fun d => Ok ((a, x) :: d)))
    end.
  Fixpoint categorical (cat l : list string) (g : graph) : result (dict string (option (list nat * list Q))) :=
    match l with
    | [] => Ok []
    | a :: r =>
        bind (if lmem cat a then bind (data_of a (edges g)) (fun d => Ok (Some (hist d))) else Ok None) (fun x =>
        bind (categorical cat r g) (fun d => Ok ((a, x) :: d)))
    end.

  Record profile := {
    sample_size : nat; num_nodes : option nat; num_edges : option nat; cat_attributes : option (list string);
    cont_attributes : option (list string); avg_node_degree : option Q; max_comp : option nat;
    cont_distribution : option (dict string (option fitted)); cat_distribution : option (dict string (option (list nat * list Q)))
  }.
  Definition new_profile : profile :=
    {| sample_size := 0; num_nodes := None; num_edges := None; cat_attributes := None; cont_attributes := None; avg_node_degree := None;
       max_comp := None; cont_distribution := None; cat_distribution := None |}.

  (** update: the profile afterwards (also after an error), and the error if any *)
  Definition update (p : profile) (g : graph) : profile * option exn :=
    match nodes g, edges g with
    | [], [] => (p, None)
    | _, _ =>
        let n := length (nodes g) in
        let p1 := {| sample_size := sample_size p; num_nodes := Some n; num_edges := Some (length (edges g));
                     cat_attributes := cat_attributes p; cont_attributes := cont_attributes p; avg_node_degree := avg_node_degree p;
                     max_comp := max_comp p; cont_distribution := cont_distribution p; cat_distribution := cat_distribution p |} in
        match cat_cont g with
        | Err e => (p1, Some e)
        | Ok (cat, cont) =>
            let p2 := {| sample_size := sample_size p; num_nodes := Some n; num_edges := Some (length (edges g));
                         cat_attributes := Some cat; cont_attributes := Some cont; avg_node_degree := Some (avg_degree g n);
                         max_comp := Some (max_component g); cont_distribution := cont_distribution p; cat_distribution := cat_distribution p |} in
            match bind (all_attributes g) (fun l => continuous cont l g) with
            | Err e => (p2, Some e)
            | Ok d1 =>
                let p3 := {| sample_size := sample_size p; num_nodes := num_nodes p2; num_edges := num_edges p2; cat_attributes := cat_attributes p2;
                             cont_attributes := cont_attributes p2; avg_node_degree := avg_node_degree p2; max_comp := max_comp p2;
                             cont_distribution := Some d1; cat_distribution := cat_distribution p |} in
                match bind (all_attributes g) (fun l => categorical cat l g) with
                | Err e => (p3, Some e)
                | Ok d2 =>
                    ({| sample_size := sample_size p + length (edges g); num_nodes := num_nodes p2; num_edges := num_edges p2;
                        cat_attributes := cat_attributes p2; cont_attributes := cont_attributes p2; avg_node_degree := avg_node_degree p2;
                        max_comp := max_comp p2; cont_distribution := Some d1; cat_distribution := Some d2 |}, None)
                end
            end
        end
    end.
End Graph.
Arguments graph : clear implicits.
Arguments edge : clear implicits.
