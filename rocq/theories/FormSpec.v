(** The form that relay rules ask of inputs, leaving open whether keys and signatures are the right ones. *)
From Verif Require Import GoBase SecpSpec EcdsaSpec DerSpec NetSpec.
From Verif Require LockSpec.

(** A signature: DER of two numbers, the second low, and the type byte ALL. *)
Definition sig_form (sig : bytes) : Prop := len sig <= 73 /\ exists der r s, sig = der ++ [1] /\ der_sig der r s /\ s <= order_n / 2.
Section Form.
Variable sha256 hash160 : bytes -> bytes.
Inductive net_form (i : net_in) (lock : bytes) (told : obytes) : Prop :=
| form_p2pkh h sig key : bytes_ok h -> len h = 20 -> lock = LockSpec.p2pkh_script h -> told = None ->
    n_script i = shortest_push sig ++ shortest_push key -> n_witness i = [] -> sec_form false key -> sig_form sig -> net_form i lock told
| form_p2wpkh h sig key : bytes_ok h -> len h = 20 -> lock = LockSpec.p2wpkh_script h -> told = None ->
    n_script i = [] -> n_witness i = [sig; key] -> sec_form true key -> sig_form sig -> net_form i lock told
| form_p2sh m keys sigs : lock = LockSpec.p2sh_script (hash160 (m_of_n m keys)) -> told = Some (m_of_n m keys) ->
    1 <= m <= len keys -> len keys <= 20 -> len (m_of_n m keys) <= 520 -> Forall (sec_form false) keys -> len sigs = m -> Forall sig_form sigs ->
    n_script i = 0 :: concat (map shortest_push sigs) ++ shortest_push (m_of_n m keys) -> n_witness i = [] -> net_form i lock told
| form_p2wsh m keys sigs : lock = LockSpec.p2wsh_script (sha256 (m_of_n m keys)) -> told = Some (m_of_n m keys) ->
    1 <= m <= len keys -> len keys <= 16 -> Forall (sec_form true) keys -> len sigs = m -> Forall sig_form sigs ->
    n_script i = [] -> n_witness i = [] :: sigs ++ [m_of_n m keys] -> net_form i lock told.
Definition in_form (i : net_in) (p : Z * bytes * obytes) : Prop := 0 <= fst (fst p) < 2 ^ 64 /\ net_form i (snd (fst p)) (snd p).
End Form.
