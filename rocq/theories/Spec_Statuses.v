(** * Which status each test of a validation can give (C15, C106) *)

From Coq Require Import List NArith ZArith Bool String.
From Verif Require Import PyBase Findings.
Import ListNotations.
Open Scope string_scope.
Open Scope list_scope.

Inductive gives : pystr -> status -> Prop :=
(** names *)
| g_name : forall st, In st [OK; NOTE; WARN; ERROR; TODO] -> gives (py "validItemName") st
(** attributes *)
| g_value : forall st, In st [OK; NOTE; ERROR; TODO] -> gives (py "attribute value") st
| g_signal_name : forall s st, In st [OK; NOTE; ERROR] -> gives (py "valid name @signal=" ++ s) st
| g_axis_name : forall s st, In st [OK; NOTE; ERROR] -> gives (py "valid name @axes['" ++ s ++ py "']") st
| g_axis : forall s st, In st [OK; ERROR] -> gives (py "axes['" ++ s ++ py "'] exists") st
(** groups and their classes *)
| g_known : forall st, In st [OK; ERROR] -> gives (py "known NXDL") st
| g_class : forall st, In st [OK; ERROR; TODO] -> gives (py "NeXus base class") st
| g_no_nexus : gives (py "NeXus_group") OK
| g_attribute : gives (py "known attribute") OK
| g_enumeration : forall st, In st [OK; ERROR] -> gives (py "attribute value enumeration") st
| g_value_signal : forall st, In st [OK; ERROR] -> gives (py "value of @signal") st
| g_value_default : forall st, In st [OK; ERROR] -> gives (py "value of @default") st
| g_value_other : forall s, ~ In s [py "signal"; py "target"; py "axes"] -> gives (py "value of @" ++ s) TODO
| g_field : gives (py "field in base class") OK
| g_group : gives (py "group in base class") OK
| g_unhandled : gives (py "unhandled: group_items_in_base_class") TODO
| g_field_here : forall st, In st [OK; OPTIONAL] -> gives (py "NXDL field in data file") st
| g_group_here : forall st, In st [OK; OPTIONAL] -> gives (py "NXDL group in data file") st
(** application definitions *)
| g_definition : forall st, In st [OK; ERROR; TODO] -> gives (py "NeXus application definition") st
| g_nxdl_field : forall st, In st [OK; ERROR] -> gives (py "NXDL field") st
| g_nxdl_value : forall st, In st [OK; ERROR] -> gives (py "NXDL field enumerations") st
(** default plots *)
| g_plot : forall st, In st [OK; NOTE; ERROR] -> gives (py "NeXus default plot") st
| g_plot_signal : forall st, In st [OK; ERROR] -> gives (py "NeXus default plot v3, NXdata@signal") st
| g_plot_chain : gives (py "NeXus default plot v3 NIAC2014") OK
| g_plot_v2 : gives (py "NeXus default plot v2") OK
| g_plot_one : gives (py "NeXus default plot v2, @signal=1") OK
| g_plot_other : gives (py "NeXus default plot v2, @signal!=1") WARN
| g_plot_many : gives (py "NeXus default plot v2, multiple @signal=1") ERROR.
