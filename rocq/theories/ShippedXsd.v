(** * The XML Schema files of the file sets shipped in /repo/punx/cache

    Generated from nxdl.xsd and nxdlTypes.xsd of v2018.5, v3.3 and a4fd52d: the elements below the
    root, with their attributes and comments.  The content of the annotations (which the
    program skips) is left out. *)

From Coq Require Import List NArith String.
From Verif Require Import PyBase SchemaMgr.
Import ListNotations.
Open Scope string_scope.
Open Scope list_scope.

Definition n (tag : string) (a : list (string * string)) (k : list snode) : snode :=
  SN (py tag) (map (fun p => (py (fst p), py (snd p))) a) k.

(** /repo/punx/cache/v2018.5/nxdl.xsd *)
Definition nxdl_v2018_5 : list snode := [
 n "annotation" [] [];
 SComment;
 n "include" [("schemaLocation", "nxdlTypes.xsd")] [
  n "annotation" [] []];
 SComment;
 SComment;
 n "element" [("name", "definition"); ("type", "nx:definitionType")] [
  n "annotation" [] []];
 SComment;
 n "simpleType" [("name", "validItemName")] [
  n "annotation" [] [];
  n "restriction" [("base", "xs:token")] [
   n "pattern" [("value", "[A-Za-z_][\w_]*")] [];
   n "maxLength" [("value", "63")] [];
   SComment]];
 n "simpleType" [("name", "validNXClassName")] [
  n "annotation" [] [];
  n "restriction" [("base", "nx:validItemName")] [
   n "pattern" [("value", "NX.+")] []]];
 n "simpleType" [("name", "validTargetName")] [
  n "annotation" [] [];
  n "restriction" [("base", "xs:token")] [
   n "annotation" [] [];
   n "pattern" [("value", "(/[a-zA-Z_][\w_]*(:[a-zA-Z_][\w_]*)?)+")] []]];
 SComment;
 n "attributeGroup" [("name", "deprecatedAttributeGroup")] [
  n "attribute" [("name", "deprecated"); ("use", "optional")] [
   n "annotation" [] [];
   n "simpleType" [] [
    n "restriction" [("base", "xs:string")] [
     n "pattern" [("value", ".*(\w+).*")] []]]]];
 n "complexType" [("name", "definitionType")] [
  n "annotation" [] [];
  n "sequence" [] [
   n "element" [("name", "symbols"); ("type", "nx:symbolsType"); ("minOccurs", "0"); ("maxOccurs", "1")] [
    n "annotation" [] []];
   n "group" [("ref", "nx:groupGroup"); ("minOccurs", "0"); ("maxOccurs", "unbounded")] [
    n "annotation" [] []]];
  n "attribute" [("name", "name"); ("use", "required"); ("type", "nx:validItemName")] [
   n "annotation" [] []];
  n "attribute" [("name", "type"); ("use", "required"); ("type", "nx:definitionTypeAttr")] [
   n "annotation" [] []];
  n "attribute" [("name", "extends"); ("use", "optional")] [
   n "annotation" [] []];
  n "attribute" [("name", "restricts"); ("use", "optional")] [
   n "annotation" [] []];
  n "attribute" [("name", "svnid"); ("use", "optional")] [
   n "annotation" [] []];
  n "attribute" [("name", "category"); ("use", "required")] [
   n "annotation" [] [];
   n "simpleType" [] [
    n "restriction" [("base", "xs:string")] [
     n "enumeration" [("value", "base")] [];
     n "enumeration" [("value", "application")] [];
     n "enumeration" [("value", "contributed")] []]]];
  n "attribute" [("name", "ignoreExtraGroups"); ("use", "optional"); ("type", "nx:NX_BOOLEAN"); ("default", "false")] [
   n "annotation" [] []];
  n "attribute" [("name", "ignoreExtraFields"); ("use", "optional"); ("type", "nx:NX_BOOLEAN"); ("default", "false")] [
   n "annotation" [] []];
  n "attribute" [("name", "ignoreExtraAttributes"); ("use", "optional"); ("type", "nx:NX_BOOLEAN"); ("default", "false")] [
   n "annotation" [] []];
  n "attributeGroup" [("ref", "nx:deprecatedAttributeGroup")] []];
 n "simpleType" [("name", "definitionTypeAttr")] [
  n "annotation" [] [];
  n "restriction" [("base", "xs:string")] [
   n "enumeration" [("value", "group")] [];
   n "enumeration" [("value", "definition")] []]];
 SComment;
 n "complexType" [("name", "choiceType")] [
  n "annotation" [] [];
  n "sequence" [] [
   n "element" [("name", "group"); ("type", "nx:groupType"); ("minOccurs", "2"); ("maxOccurs", "unbounded")] [
    n "annotation" [] []]];
  n "attribute" [("name", "name"); ("use", "required"); ("type", "nx:validItemName")] [
   n "annotation" [] []]];
 SComment;
 n "complexType" [("name", "groupType")] [
  n "annotation" [] [];
  n "group" [("ref", "nx:groupGroup"); ("minOccurs", "0"); ("maxOccurs", "unbounded")] [
   n "annotation" [] []];
  n "attribute" [("name", "type"); ("use", "required"); ("type", "nx:validNXClassName")] [
   n "annotation" [] []];
  n "attribute" [("name", "name"); ("use", "optional"); ("type", "nx:validItemName")] [
   n "annotation" [] []];
  n "attribute" [("name", "minOccurs"); ("use", "optional"); ("default", "0"); ("type", "nx:nonNegativeUnbounded")] [
   n "annotation" [] []];
  n "attribute" [("name", "maxOccurs"); ("use", "optional"); ("type", "nx:nonNegativeUnbounded")] [
   n "annotation" [] []];
  n "attributeGroup" [("ref", "nx:deprecatedAttributeGroup")] []];
 n "group" [("name", "groupGroup")] [
  n "annotation" [] [];
  n "sequence" [] [
   n "element" [("name", "doc"); ("type", "nx:docType"); ("minOccurs", "0"); ("maxOccurs", "1")] [
    n "annotation" [] []];
   n "element" [("name", "attribute"); ("type", "nx:attributeType"); ("minOccurs", "0"); ("maxOccurs", "unbounded")] [
    n "annotation" [] []];
   n "element" [("name", "choice"); ("type", "nx:choiceType"); ("minOccurs", "0"); ("maxOccurs", "unbounded")] [
    n "annotation" [] []];
   n "element" [("name", "group"); ("type", "nx:groupType"); ("minOccurs", "0"); ("maxOccurs", "unbounded")] [
    n "annotation" [] []];
   n "element" [("name", "field"); ("type", "nx:fieldType"); ("minOccurs", "0"); ("maxOccurs", "unbounded")] [
    n "annotation" [] []];
   n "element" [("name", "link"); ("type", "nx:linkType"); ("minOccurs", "0"); ("maxOccurs", "unbounded")] [
    n "annotation" [] []]]];
 SComment;
 n "complexType" [("name", "basicComponent")] [
  n "annotation" [] [];
  n "sequence" [] [
   n "element" [("name", "doc"); ("type", "nx:docType"); ("minOccurs", "0"); ("maxOccurs", "1")] [
    n "annotation" [] []]];
  n "attribute" [("name", "name"); ("use", "required"); ("type", "nx:validItemName")] [
   n "annotation" [] []];
  n "attributeGroup" [("ref", "nx:deprecatedAttributeGroup")] []];
 SComment;
 n "complexType" [("name", "fieldType")] [
  n "annotation" [] [];
  n "complexContent" [] [
   n "extension" [("base", "nx:basicComponent")] [
    n "sequence" [] [
     n "element" [("name", "dimensions"); ("type", "nx:dimensionsType"); ("minOccurs", "0"); ("maxOccurs", "1")] [
      n "annotation" [] []];
     n "element" [("name", "attribute"); ("type", "nx:attributeType"); ("minOccurs", "0"); ("maxOccurs", "unbounded")] [
      n "annotation" [] []];
     n "element" [("name", "enumeration"); ("type", "nx:enumerationType"); ("minOccurs", "0")] [
      n "annotation" [] []]];
    n "attribute" [("name", "units"); ("type", "nx:anyUnitsAttr")] [
     n "annotation" [] []];
    n "attribute" [("name", "long_name"); ("type", "nx:NX_CHAR")] [
     n "annotation" [] []];
    n "attribute" [("name", "signal"); ("type", "nx:NX_POSINT")] [
     n "annotation" [] []];
    n "attribute" [("name", "axes"); ("type", "nx:NX_CHAR")] [
     n "annotation" [] []];
    n "attribute" [("name", "axis"); ("type", "nx:NX_POSINT")] [
     n "annotation" [] []];
    n "attribute" [("name", "primary"); ("type", "nx:NX_POSINT")] [
     n "annotation" [] []];
    n "attribute" [("name", "type"); ("type", "nx:NAPI"); ("default", "NX_CHAR")] [
     n "annotation" [] []];
    n "attribute" [("name", "minOccurs"); ("use", "optional"); ("default", "0"); ("type", "nx:nonNegativeUnbounded")] [
     n "annotation" [] []];
    n "attribute" [("name", "maxOccurs"); ("use", "optional"); ("default", "1"); ("type", "nx:nonNegativeUnbounded")] [
     n "annotation" [] []];
    n "attribute" [("name", "stride"); ("use", "optional"); ("default", "1"); ("type", "nx:NX_INT")] [
     n "annotation" [] []];
    n "attribute" [("name", "data_offset"); ("use", "optional"); ("default", "1"); ("type", "nx:nonNegativeUnbounded")] [
     n "annotation" [] []];
    n "attribute" [("name", "interpretation"); ("use", "optional")] [
     n "annotation" [] [];
     n "simpleType" [] [
      n "restriction" [("base", "nx:NX_CHAR")] [
       n "enumeration" [("value", "scalar")] [];
       n "enumeration" [("value", "spectrum")] [];
       n "enumeration" [("value", "image")] [];
       n "enumeration" [("value", "vertex")] []]]];
    n "attribute" [("name", "nameType"); ("use", "optional"); ("default", "specified")] [
     n "annotation" [] [];
     n "simpleType" [] [
      n "restriction" [("base", "nx:NX_CHAR")] [
       n "enumeration" [("value", "specified")] [];
       n "enumeration" [("value", "any")] []]]]]]];
 n "complexType" [("name", "attributeType")] [
  n "annotation" [] [];
  n "sequence" [] [
   n "element" [("name", "doc"); ("type", "nx:docType"); ("minOccurs", "0")] [
    n "annotation" [] []];
   n "element" [("name", "enumeration"); ("type", "nx:enumerationType"); ("minOccurs", "0")] [
    n "annotation" [] []];
   n "element" [("name", "dimensions"); ("type", "nx:dimensionsType"); ("minOccurs", "0"); ("maxOccurs", "1")] [
    n "annotation" [] []]];
  n "attribute" [("name", "name"); ("use", "required"); ("type", "nx:validItemName")] [
   n "annotation" [] []];
  n "attribute" [("name", "type"); ("type", "nx:primitiveType"); ("default", "NX_CHAR")] [
   n "annotation" [] []];
  n "attribute" [("name", "optional"); ("type", "nx:NX_BOOLEAN"); ("default", "true")] [
   n "annotation" [] []];
  n "attributeGroup" [("ref", "nx:deprecatedAttributeGroup")] []];
 n "simpleType" [("name", "nonNegativeUnbounded")] [
  n "annotation" [] [];
  n "union" [] [
   n "simpleType" [] [
    n "restriction" [("base", "xs:nonNegativeInteger")] []];
   n "simpleType" [] [
    n "restriction" [("base", "xs:string")] [
     n "enumeration" [("value", "unbounded")] []]]]];
 SComment;
 n "complexType" [("name", "linkType")] [
  n "annotation" [] [];
  n "complexContent" [] [
   n "extension" [("base", "nx:basicComponent")] [
    n "attribute" [("name", "target"); ("use", "required"); ("type", "nx:validTargetName")] [
     n "annotation" [] []];
    n "attribute" [("name", "napimount"); ("use", "optional"); ("type", "xs:string")] [
     n "annotation" [] []]]]];
 n "complexType" [("name", "docType"); ("mixed", "true")] [
  n "annotation" [] [];
  n "sequence" [] [
   n "any" [("minOccurs", "0"); ("maxOccurs", "unbounded"); ("processContents", "lax")] []]];
 n "complexType" [("name", "symbolsType"); ("mixed", "true")] [
  n "annotation" [] [];
  n "sequence" [] [
   n "element" [("name", "doc"); ("type", "nx:docType"); ("minOccurs", "0"); ("maxOccurs", "1")] [
    n "annotation" [] []];
   n "element" [("name", "symbol"); ("minOccurs", "0"); ("maxOccurs", "unbounded")] [
    n "annotation" [] [];
    n "complexType" [] [
     n "sequence" [] [
      n "element" [("name", "doc"); ("type", "nx:docType"); ("minOccurs", "0"); ("maxOccurs", "1")] [
       n "annotation" [] []]];
     n "attribute" [("name", "name"); ("type", "nx:validItemName")] [
      n "annotation" [] []]]]]];
 n "complexType" [("name", "enumerationType")] [
  n "annotation" [] [];
  n "sequence" [] [
   n "element" [("name", "item"); ("minOccurs", "1"); ("maxOccurs", "unbounded")] [
    n "annotation" [] [];
    n "complexType" [] [
     n "sequence" [] [
      n "element" [("name", "doc"); ("type", "nx:docType"); ("minOccurs", "0"); ("maxOccurs", "1")] [
       n "annotation" [] []]];
     n "attribute" [("name", "value"); ("use", "required")] [
      n "annotation" [] []]]]]];
 n "complexType" [("name", "dimensionsType")] [
  SComment;
  n "annotation" [] [];
  n "sequence" [] [
   n "element" [("name", "doc"); ("type", "nx:docType"); ("minOccurs", "0")] [
    n "annotation" [] []];
   n "element" [("name", "dim"); ("minOccurs", "0"); ("maxOccurs", "unbounded")] [
    n "annotation" [] [];
    n "complexType" [] [
     n "attribute" [("name", "index"); ("use", "required")] [
      n "annotation" [] []];
     n "attribute" [("name", "value"); ("type", "nx:NX_CHAR")] [
      n "annotation" [] []];
     n "attribute" [("name", "ref"); ("type", "nx:NX_CHAR")] [
      n "annotation" [] []];
     n "attribute" [("name", "refindex"); ("type", "nx:NX_CHAR")] [
      n "annotation" [] []];
     n "attribute" [("name", "incr"); ("type", "nx:NX_CHAR")] [
      n "annotation" [] []];
     n "attribute" [("name", "required"); ("type", "nx:NX_BOOLEAN"); ("default", "true")] [
      n "annotation" [] []]]]];
  n "attribute" [("name", "rank"); ("type", "nx:NX_CHAR")] [
   n "annotation" [] []]]].

(** /repo/punx/cache/v2018.5/nxdlTypes.xsd *)
Definition nxdlTypes_v2018_5 : list snode := [
 n "annotation" [] [];
 SComment;
 SComment;
 n "simpleType" [("name", "anyUnitsAttr")] [
  n "annotation" [] [];
  n "union" [("memberTypes", "    nxdl:NX_ANGLE    nxdl:NX_ANY    nxdl:NX_AREA    nxdl:NX_CROSS_SECTION    nxdl:NX_CHARGE    nxdl:NX_CURRENT    nxdl:NX_DIMENSIONLESS    nxdl:NX_EMITTANCE    nxdl:NX_ENERGY    nxdl:NX_FLUX    nxdl:NX_FREQUENCY    nxdl:NX_LENGTH    nxdl:NX_MASS    nxdl:NX_MASS_DENSITY    nxdl:NX_MOLECULAR_WEIGHT    nxdl:NX_PER_AREA    nxdl:NX_PER_LENGTH    nxdl:NX_PERIOD    nxdl:NX_POWER     nxdl:NX_PRESSURE    nxdl:NX_PULSES    nxdl:NX_SCATTERING_LENGTH_DENSITY    nxdl:NX_SOLID_ANGLE    nxdl:NX_TEMPERATURE    nxdl:NX_TIME    nxdl:NX_TIME_OF_FLIGHT    nxdl:NX_TRANSFORMATION    nxdl:NX_UNITLESS    nxdl:NX_VOLTAGE    nxdl:NX_VOLUME    nxdl:NX_UNITLESS    nxdl:NX_WAVELENGTH    nxdl:NX_WAVENUMBER    ")] []];
 n "simpleType" [("name", "NX_ANGLE")] [
  n "annotation" [] [];
  n "restriction" [("base", "xs:string")] []];
 n "simpleType" [("name", "NX_ANY")] [
  n "annotation" [] [];
  n "restriction" [("base", "xs:string")] []];
 n "simpleType" [("name", "NX_AREA")] [
  n "annotation" [] [];
  n "restriction" [("base", "xs:string")] []];
 n "simpleType" [("name", "NX_CROSS_SECTION")] [
  n "annotation" [] [];
  n "union" [("memberTypes", "nxdl:NX_AREA")] []];
 n "simpleType" [("name", "NX_CHARGE")] [
  n "annotation" [] [];
  n "restriction" [("base", "xs:string")] []];
 n "simpleType" [("name", "NX_CURRENT")] [
  n "annotation" [] [];
  n "restriction" [("base", "xs:string")] []];
 n "simpleType" [("name", "NX_DIMENSIONLESS")] [
  n "annotation" [] [];
  n "restriction" [("base", "xs:string")] []];
 n "simpleType" [("name", "NX_EMITTANCE")] [
  n "annotation" [] [];
  n "restriction" [("base", "xs:string")] []];
 n "simpleType" [("name", "NX_ENERGY")] [
  n "annotation" [] [];
  n "restriction" [("base", "xs:string")] []];
 n "simpleType" [("name", "NX_FLUX")] [
  n "annotation" [] [];
  n "restriction" [("base", "xs:string")] []];
 n "simpleType" [("name", "NX_FREQUENCY")] [
  n "annotation" [] [];
  n "restriction" [("base", "xs:string")] []];
 n "simpleType" [("name", "NX_LENGTH")] [
  n "annotation" [] [];
  n "restriction" [("base", "xs:string")] []];
 n "simpleType" [("name", "NX_MASS")] [
  n "annotation" [] [];
  n "restriction" [("base", "xs:string")] []];
 n "simpleType" [("name", "NX_MASS_DENSITY")] [
  n "annotation" [] [];
  n "restriction" [("base", "xs:string")] []];
 n "simpleType" [("name", "NX_MOLECULAR_WEIGHT")] [
  n "annotation" [] [];
  n "restriction" [("base", "xs:string")] []];
 n "simpleType" [("name", "NX_PER_AREA")] [
  n "annotation" [] [];
  n "restriction" [("base", "xs:string")] []];
 n "simpleType" [("name", "NX_PER_LENGTH")] [
  n "annotation" [] [];
  n "restriction" [("base", "xs:string")] []];
 n "simpleType" [("name", "NX_PERIOD")] [
  n "annotation" [] [];
  n "restriction" [("base", "nxdl:NX_TIME")] []];
 n "simpleType" [("name", "NX_POWER")] [
  n "annotation" [] [];
  n "restriction" [("base", "xs:string")] []];
 n "simpleType" [("name", "NX_PRESSURE")] [
  n "annotation" [] [];
  n "restriction" [("base", "xs:string")] []];
 n "simpleType" [("name", "NX_PULSES")] [
  n "annotation" [] [];
  n "restriction" [("base", "nxdl:NX_NUMBER")] []];
 n "simpleType" [("name", "NX_SCATTERING_LENGTH_DENSITY")] [
  n "annotation" [] [];
  SComment;
  SComment;
  n "restriction" [("base", "xs:string")] []];
 n "simpleType" [("name", "NX_SOLID_ANGLE")] [
  n "annotation" [] [];
  n "restriction" [("base", "xs:string")] []];
 n "simpleType" [("name", "NX_TEMPERATURE")] [
  n "annotation" [] [];
  n "restriction" [("base", "xs:string")] []];
 n "simpleType" [("name", "NX_TIME")] [
  n "annotation" [] [];
  n "restriction" [("base", "xs:string")] []];
 n "simpleType" [("name", "NX_TIME_OF_FLIGHT")] [
  n "annotation" [] [];
  n "restriction" [("base", "nxdl:NX_TIME")] []];
 n "simpleType" [("name", "NX_TRANSFORMATION")] [
  n "annotation" [] [];
  n "union" [("memberTypes", "    nxdl:NX_LENGTH     nxdl:NX_ANGLE     nxdl:NX_UNITLESS    ")] []];
 n "simpleType" [("name", "NX_UNITLESS")] [
  n "annotation" [] [];
  n "restriction" [("base", "xs:string")] []];
 n "simpleType" [("name", "NX_VOLTAGE")] [
  n "annotation" [] [];
  n "restriction" [("base", "xs:string")] []];
 n "simpleType" [("name", "NX_VOLUME")] [
  n "annotation" [] [];
  n "restriction" [("base", "xs:string")] []];
 n "simpleType" [("name", "NX_WAVELENGTH")] [
  n "annotation" [] [];
  n "restriction" [("base", "xs:string")] []];
 n "simpleType" [("name", "NX_WAVENUMBER")] [
  n "annotation" [] [];
  SComment;
  SComment;
  n "restriction" [("base", "xs:string")] []];
 SComment;
 n "simpleType" [("name", "primitiveType")] [
  n "annotation" [] [];
  n "list" [("itemType", "nxdl:NAPI")] []];
 n "simpleType" [("name", "NAPI")] [
  n "annotation" [] [];
  n "union" [("memberTypes", "    nxdl:NX_CHAR    nxdl:NX_FLOAT    nxdl:NX_INT    nxdl:NX_UINT    nxdl:NX_POSINT    nxdl:NX_NUMBER    nxdl:NX_DATE_TIME    nxdl:NX_BOOLEAN    nxdl:NX_BINARY    nxdl:ISO8601    ")] []];
 n "simpleType" [("name", "NX_CHAR")] [
  n "annotation" [] [];
  n "restriction" [("base", "xs:string")] []];
 n "simpleType" [("name", "NX_FLOAT")] [
  n "annotation" [] [];
  n "restriction" [("base", "xs:float")] []];
 n "simpleType" [("name", "NX_INT")] [
  n "annotation" [] [];
  n "restriction" [("base", "xs:integer")] []];
 n "simpleType" [("name", "NX_UINT")] [
  n "annotation" [] [];
  n "restriction" [("base", "xs:unsignedInt")] []];
 n "simpleType" [("name", "NX_POSINT")] [
  n "annotation" [] [];
  n "restriction" [("base", "xs:positiveInteger")] []];
 n "simpleType" [("name", "NX_NUMBER")] [
  n "annotation" [] [];
  n "union" [("memberTypes", "    nxdl:NX_INT     nxdl:NX_UINT     nxdl:NX_POSINT     nxdl:NX_FLOAT    ")] []];
 n "simpleType" [("name", "NX_DATE_TIME")] [
  n "annotation" [] [];
  n "restriction" [("base", "nxdl:ISO8601")] []];
 n "simpleType" [("name", "ISO8601")] [
  n "annotation" [] [];
  n "restriction" [("base", "xs:dateTime")] []];
 n "simpleType" [("name", "NX_BOOLEAN")] [
  n "annotation" [] [];
  n "restriction" [("base", "xs:boolean")] []];
 n "simpleType" [("name", "NX_BINARY")] [
  n "annotation" [] [];
  SComment;
  SComment;
  n "restriction" [("base", "xs:unsignedByte")] []]].

(** /repo/punx/cache/v3.3/nxdl.xsd *)
Definition nxdl_v3_3 : list snode := [
 n "annotation" [] [];
 SComment;
 n "include" [("schemaLocation", "nxdlTypes.xsd")] [
  n "annotation" [] []];
 SComment;
 SComment;
 n "element" [("name", "definition"); ("type", "nx:definitionType")] [
  n "annotation" [] []];
 SComment;
 n "simpleType" [("name", "validItemName")] [
  n "annotation" [] [];
  n "restriction" [("base", "xs:token")] [
   n "pattern" [("value", "[A-Za-z_][\w_]*")] [];
   n "maxLength" [("value", "63")] [];
   SComment]];
 n "simpleType" [("name", "validNXClassName")] [
  n "annotation" [] [];
  n "restriction" [("base", "nx:validItemName")] [
   n "pattern" [("value", "NX.+")] []]];
 n "simpleType" [("name", "validTargetName")] [
  n "annotation" [] [];
  n "restriction" [("base", "xs:token")] [
   n "annotation" [] [];
   n "pattern" [("value", "(/[a-zA-Z_][\w_]*(:[a-zA-Z_][\w_]*)?)+")] []]];
 SComment;
 n "attributeGroup" [("name", "deprecatedAttributeGroup")] [
  n "attribute" [("name", "deprecated"); ("use", "optional")] [
   n "annotation" [] [];
   n "simpleType" [] [
    n "restriction" [("base", "xs:string")] [
     n "pattern" [("value", ".*(\w+).*")] []]]]];
 n "complexType" [("name", "definitionType")] [
  n "annotation" [] [];
  n "sequence" [] [
   n "element" [("name", "symbols"); ("type", "nx:symbolsType"); ("minOccurs", "0"); ("maxOccurs", "1")] [
    n "annotation" [] []];
   n "group" [("ref", "nx:groupGroup"); ("minOccurs", "0"); ("maxOccurs", "unbounded")] [
    n "annotation" [] []]];
  n "attribute" [("name", "name"); ("use", "required"); ("type", "nx:validItemName")] [
   n "annotation" [] []];
  n "attribute" [("name", "version"); ("use", "required")] [
   n "annotation" [] []];
  n "attribute" [("name", "type"); ("use", "required"); ("type", "nx:definitionTypeAttr")] [
   n "annotation" [] []];
  n "attribute" [("name", "extends"); ("use", "optional")] [
   n "annotation" [] []];
  n "attribute" [("name", "restricts"); ("use", "optional")] [
   n "annotation" [] []];
  n "attribute" [("name", "svnid"); ("use", "optional")] [
   n "annotation" [] []];
  n "attribute" [("name", "category"); ("use", "required")] [
   n "annotation" [] [];
   n "simpleType" [] [
    n "restriction" [("base", "xs:string")] [
     n "enumeration" [("value", "base")] [];
     n "enumeration" [("value", "application")] [];
     n "enumeration" [("value", "contributed")] []]]];
  n "attribute" [("name", "ignoreExtraGroups"); ("use", "optional"); ("type", "nx:NX_BOOLEAN"); ("default", "false")] [
   n "annotation" [] []];
  n "attribute" [("name", "ignoreExtraFields"); ("use", "optional"); ("type", "nx:NX_BOOLEAN"); ("default", "false")] [
   n "annotation" [] []];
  n "attribute" [("name", "ignoreExtraAttributes"); ("use", "optional"); ("type", "nx:NX_BOOLEAN"); ("default", "false")] [
   n "annotation" [] []];
  n "attributeGroup" [("ref", "nx:deprecatedAttributeGroup")] []];
 n "simpleType" [("name", "definitionTypeAttr")] [
  n "annotation" [] [];
  n "restriction" [("base", "xs:string")] [
   n "enumeration" [("value", "group")] [];
   n "enumeration" [("value", "definition")] []]];
 SComment;
 n "complexType" [("name", "groupType")] [
  n "annotation" [] [];
  n "group" [("ref", "nx:groupGroup"); ("minOccurs", "0"); ("maxOccurs", "unbounded")] [
   n "annotation" [] []];
  n "attribute" [("name", "type"); ("use", "required"); ("type", "nx:validNXClassName")] [
   n "annotation" [] []];
  n "attribute" [("name", "name"); ("use", "optional"); ("type", "nx:validItemName")] [
   n "annotation" [] []];
  n "attribute" [("name", "minOccurs"); ("use", "optional"); ("default", "0"); ("type", "nx:nonNegativeUnbounded")] [
   n "annotation" [] []];
  n "attribute" [("name", "maxOccurs"); ("use", "optional"); ("type", "nx:nonNegativeUnbounded")] [
   n "annotation" [] []];
  n "attributeGroup" [("ref", "nx:deprecatedAttributeGroup")] []];
 n "group" [("name", "groupGroup")] [
  n "annotation" [] [];
  n "sequence" [] [
   n "element" [("name", "doc"); ("type", "nx:docType"); ("minOccurs", "0"); ("maxOccurs", "1")] [
    n "annotation" [] []];
   n "element" [("name", "attribute"); ("type", "nx:attributeType"); ("minOccurs", "0"); ("maxOccurs", "unbounded")] [
    n "annotation" [] []];
   n "element" [("name", "group"); ("type", "nx:groupType"); ("minOccurs", "0"); ("maxOccurs", "unbounded")] [
    n "annotation" [] []];
   n "element" [("name", "field"); ("type", "nx:fieldType"); ("minOccurs", "0"); ("maxOccurs", "unbounded")] [
    n "annotation" [] []];
   n "element" [("name", "link"); ("type", "nx:linkType"); ("minOccurs", "0"); ("maxOccurs", "unbounded")] [
    n "annotation" [] []]]];
 SComment;
 n "complexType" [("name", "basicComponent")] [
  n "annotation" [] [];
  n "sequence" [] [
   n "element" [("name", "doc"); ("type", "nx:docType"); ("minOccurs", "0"); ("maxOccurs", "1")] [
    n "annotation" [] []]];
  n "attribute" [("name", "name"); ("use", "required"); ("type", "nx:validItemName")] [
   n "annotation" [] []];
  n "attributeGroup" [("ref", "nx:deprecatedAttributeGroup")] []];
 SComment;
 n "complexType" [("name", "fieldType")] [
  n "annotation" [] [];
  n "complexContent" [] [
   n "extension" [("base", "nx:basicComponent")] [
    n "sequence" [] [
     n "element" [("name", "dimensions"); ("type", "nx:dimensionsType"); ("minOccurs", "0"); ("maxOccurs", "1")] [
      n "annotation" [] []];
     n "element" [("name", "attribute"); ("type", "nx:attributeType"); ("minOccurs", "0"); ("maxOccurs", "unbounded")] [
      n "annotation" [] []];
     n "element" [("name", "enumeration"); ("type", "nx:enumerationType"); ("minOccurs", "0")] [
      n "annotation" [] []]];
    n "attribute" [("name", "units"); ("type", "nx:anyUnitsAttr")] [
     n "annotation" [] []];
    n "attribute" [("name", "long_name"); ("type", "nx:NX_CHAR")] [
     n "annotation" [] []];
    n "attribute" [("name", "signal"); ("type", "nx:NX_POSINT")] [
     n "annotation" [] []];
    n "attribute" [("name", "axes"); ("type", "nx:NX_CHAR")] [
     n "annotation" [] []];
    n "attribute" [("name", "axis"); ("type", "nx:NX_POSINT")] [
     n "annotation" [] []];
    n "attribute" [("name", "primary"); ("type", "nx:NX_POSINT")] [
     n "annotation" [] []];
    n "attribute" [("name", "type"); ("type", "nx:NAPI"); ("default", "NX_CHAR")] [
     n "annotation" [] []];
    n "attribute" [("name", "minOccurs"); ("use", "optional"); ("default", "0"); ("type", "nx:nonNegativeUnbounded")] [
     n "annotation" [] []];
    n "attribute" [("name", "maxOccurs"); ("use", "optional"); ("default", "1"); ("type", "nx:nonNegativeUnbounded")] [
     n "annotation" [] []];
    n "attribute" [("name", "stride"); ("use", "optional"); ("default", "1"); ("type", "nx:NX_INT")] [
     n "annotation" [] []];
    n "attribute" [("name", "data_offset"); ("use", "optional"); ("default", "1"); ("type", "nx:nonNegativeUnbounded")] [
     n "annotation" [] []];
    n "attribute" [("name", "interpretation"); ("use", "optional")] [
     n "annotation" [] [];
     n "simpleType" [] [
      n "restriction" [("base", "nx:NX_CHAR")] [
       n "enumeration" [("value", "scalar")] [];
       n "enumeration" [("value", "spectrum")] [];
       n "enumeration" [("value", "image")] [];
       n "enumeration" [("value", "vertex")] []]]];
    n "attribute" [("name", "nameType"); ("use", "optional"); ("default", "specified")] [
     n "annotation" [] [];
     n "simpleType" [] [
      n "restriction" [("base", "nx:NX_CHAR")] [
       n "enumeration" [("value", "specified")] [];
       n "enumeration" [("value", "any")] []]]]]]];
 n "complexType" [("name", "attributeType")] [
  n "annotation" [] [];
  n "sequence" [] [
   n "element" [("name", "doc"); ("type", "nx:docType"); ("minOccurs", "0")] [
    n "annotation" [] []];
   n "element" [("name", "enumeration"); ("type", "nx:enumerationType"); ("minOccurs", "0")] [
    n "annotation" [] []];
   n "element" [("name", "dimensions"); ("type", "nx:dimensionsType"); ("minOccurs", "0"); ("maxOccurs", "1")] [
    n "annotation" [] []]];
  n "attribute" [("name", "name"); ("use", "required"); ("type", "nx:validItemName")] [
   n "annotation" [] []];
  n "attribute" [("name", "type"); ("type", "nx:primitiveType"); ("default", "NX_CHAR")] [
   n "annotation" [] []];
  n "attribute" [("name", "optional"); ("type", "nx:NX_BOOLEAN"); ("default", "true")] [
   n "annotation" [] []];
  n "attributeGroup" [("ref", "nx:deprecatedAttributeGroup")] []];
 n "simpleType" [("name", "nonNegativeUnbounded")] [
  n "annotation" [] [];
  n "union" [] [
   n "simpleType" [] [
    n "restriction" [("base", "xs:nonNegativeInteger")] []];
   n "simpleType" [] [
    n "restriction" [("base", "xs:string")] [
     n "enumeration" [("value", "unbounded")] []]]]];
 SComment;
 n "complexType" [("name", "linkType")] [
  n "annotation" [] [];
  n "complexContent" [] [
   n "extension" [("base", "nx:basicComponent")] [
    n "attribute" [("name", "target"); ("use", "required"); ("type", "nx:validTargetName")] [
     n "annotation" [] []];
    n "attribute" [("name", "napimount"); ("use", "optional"); ("type", "xs:string")] [
     n "annotation" [] []]]]];
 n "complexType" [("name", "docType"); ("mixed", "true")] [
  n "annotation" [] [];
  n "sequence" [] [
   n "any" [("minOccurs", "0"); ("maxOccurs", "unbounded"); ("processContents", "lax")] []]];
 n "complexType" [("name", "symbolsType"); ("mixed", "true")] [
  n "annotation" [] [];
  n "sequence" [] [
   n "element" [("name", "doc"); ("type", "nx:docType"); ("minOccurs", "0"); ("maxOccurs", "1")] [
    n "annotation" [] []];
   n "element" [("name", "symbol"); ("minOccurs", "0"); ("maxOccurs", "unbounded")] [
    n "annotation" [] [];
    n "complexType" [] [
     n "sequence" [] [
      n "element" [("name", "doc"); ("type", "nx:docType"); ("minOccurs", "0"); ("maxOccurs", "1")] [
       n "annotation" [] []]];
     n "attribute" [("name", "name"); ("type", "nx:validItemName")] [
      n "annotation" [] []]]]]];
 n "complexType" [("name", "enumerationType")] [
  n "annotation" [] [];
  n "sequence" [] [
   n "element" [("name", "item"); ("minOccurs", "1"); ("maxOccurs", "unbounded")] [
    n "annotation" [] [];
    n "complexType" [] [
     n "sequence" [] [
      n "element" [("name", "doc"); ("type", "nx:docType"); ("minOccurs", "0"); ("maxOccurs", "1")] [
       n "annotation" [] []]];
     n "attribute" [("name", "value"); ("use", "required")] [
      n "annotation" [] []]]]]];
 n "complexType" [("name", "dimensionsType")] [
  SComment;
  n "annotation" [] [];
  n "sequence" [] [
   n "element" [("name", "doc"); ("type", "nx:docType"); ("minOccurs", "0")] [
    n "annotation" [] []];
   n "element" [("name", "dim"); ("minOccurs", "0"); ("maxOccurs", "unbounded")] [
    n "annotation" [] [];
    n "complexType" [] [
     n "attribute" [("name", "index"); ("use", "required")] [
      n "annotation" [] []];
     n "attribute" [("name", "value"); ("type", "nx:NX_CHAR")] [
      n "annotation" [] []];
     n "attribute" [("name", "ref"); ("type", "nx:NX_CHAR")] [
      n "annotation" [] []];
     n "attribute" [("name", "refindex"); ("type", "nx:NX_CHAR")] [
      n "annotation" [] []];
     n "attribute" [("name", "incr"); ("type", "nx:NX_CHAR")] [
      n "annotation" [] []];
     n "attribute" [("name", "required"); ("type", "nx:NX_BOOLEAN"); ("default", "true")] [
      n "annotation" [] []]]]];
  n "attribute" [("name", "rank"); ("type", "nx:NX_CHAR")] [
   n "annotation" [] []]]].

(** /repo/punx/cache/v3.3/nxdlTypes.xsd *)
Definition nxdlTypes_v3_3 : list snode := [
 n "annotation" [] [];
 SComment;
 SComment;
 n "simpleType" [("name", "anyUnitsAttr")] [
  n "annotation" [] [];
  n "union" [("memberTypes", "    nxdl:NX_ANGLE    nxdl:NX_ANY    nxdl:NX_AREA    nxdl:NX_CROSS_SECTION    nxdl:NX_CHARGE    nxdl:NX_CURRENT    nxdl:NX_DIMENSIONLESS    nxdl:NX_EMITTANCE    nxdl:NX_ENERGY    nxdl:NX_FLUX    nxdl:NX_FREQUENCY    nxdl:NX_LENGTH    nxdl:NX_MASS    nxdl:NX_MASS_DENSITY    nxdl:NX_MOLECULAR_WEIGHT    nxdl:NX_PER_AREA    nxdl:NX_PER_LENGTH    nxdl:NX_PERIOD    nxdl:NX_POWER     nxdl:NX_PRESSURE    nxdl:NX_PULSES    nxdl:NX_SCATTERING_LENGTH_DENSITY    nxdl:NX_SOLID_ANGLE    nxdl:NX_TEMPERATURE    nxdl:NX_TIME    nxdl:NX_TIME_OF_FLIGHT    nxdl:NX_TRANSFORMATION    nxdl:NX_UNITLESS    nxdl:NX_VOLTAGE    nxdl:NX_VOLUME    nxdl:NX_UNITLESS    nxdl:NX_WAVELENGTH    nxdl:NX_WAVENUMBER    ")] []];
 n "simpleType" [("name", "NX_ANGLE")] [
  n "annotation" [] [];
  n "restriction" [("base", "xs:string")] []];
 n "simpleType" [("name", "NX_ANY")] [
  n "annotation" [] [];
  n "restriction" [("base", "xs:string")] []];
 n "simpleType" [("name", "NX_AREA")] [
  n "annotation" [] [];
  n "restriction" [("base", "xs:string")] []];
 n "simpleType" [("name", "NX_CROSS_SECTION")] [
  n "annotation" [] [];
  n "union" [("memberTypes", "nxdl:NX_AREA")] []];
 n "simpleType" [("name", "NX_CHARGE")] [
  n "annotation" [] [];
  n "restriction" [("base", "xs:string")] []];
 n "simpleType" [("name", "NX_CURRENT")] [
  n "annotation" [] [];
  n "restriction" [("base", "xs:string")] []];
 n "simpleType" [("name", "NX_DIMENSIONLESS")] [
  n "annotation" [] [];
  n "restriction" [("base", "xs:string")] []];
 n "simpleType" [("name", "NX_EMITTANCE")] [
  n "annotation" [] [];
  n "restriction" [("base", "xs:string")] []];
 n "simpleType" [("name", "NX_ENERGY")] [
  n "annotation" [] [];
  n "restriction" [("base", "xs:string")] []];
 n "simpleType" [("name", "NX_FLUX")] [
  n "annotation" [] [];
  n "restriction" [("base", "xs:string")] []];
 n "simpleType" [("name", "NX_FREQUENCY")] [
  n "annotation" [] [];
  n "restriction" [("base", "xs:string")] []];
 n "simpleType" [("name", "NX_LENGTH")] [
  n "annotation" [] [];
  n "restriction" [("base", "xs:string")] []];
 n "simpleType" [("name", "NX_MASS")] [
  n "annotation" [] [];
  n "restriction" [("base", "xs:string")] []];
 n "simpleType" [("name", "NX_MASS_DENSITY")] [
  n "annotation" [] [];
  n "restriction" [("base", "xs:string")] []];
 n "simpleType" [("name", "NX_MOLECULAR_WEIGHT")] [
  n "annotation" [] [];
  n "restriction" [("base", "xs:string")] []];
 n "simpleType" [("name", "NX_PER_AREA")] [
  n "annotation" [] [];
  n "restriction" [("base", "xs:string")] []];
 n "simpleType" [("name", "NX_PER_LENGTH")] [
  n "annotation" [] [];
  n "restriction" [("base", "xs:string")] []];
 n "simpleType" [("name", "NX_PERIOD")] [
  n "annotation" [] [];
  n "restriction" [("base", "nxdl:NX_TIME")] []];
 n "simpleType" [("name", "NX_POWER")] [
  n "annotation" [] [];
  n "restriction" [("base", "xs:string")] []];
 n "simpleType" [("name", "NX_PRESSURE")] [
  n "annotation" [] [];
  n "restriction" [("base", "xs:string")] []];
 n "simpleType" [("name", "NX_PULSES")] [
  n "annotation" [] [];
  n "restriction" [("base", "nxdl:NX_NUMBER")] []];
 n "simpleType" [("name", "NX_SCATTERING_LENGTH_DENSITY")] [
  n "annotation" [] [];
  SComment;
  SComment;
  n "restriction" [("base", "xs:string")] []];
 n "simpleType" [("name", "NX_SOLID_ANGLE")] [
  n "annotation" [] [];
  n "restriction" [("base", "xs:string")] []];
 n "simpleType" [("name", "NX_TEMPERATURE")] [
  n "annotation" [] [];
  n "restriction" [("base", "xs:string")] []];
 n "simpleType" [("name", "NX_TIME")] [
  n "annotation" [] [];
  n "restriction" [("base", "xs:string")] []];
 n "simpleType" [("name", "NX_TIME_OF_FLIGHT")] [
  n "annotation" [] [];
  n "restriction" [("base", "nxdl:NX_TIME")] []];
 n "simpleType" [("name", "NX_TRANSFORMATION")] [
  n "annotation" [] [];
  n "union" [("memberTypes", "    nxdl:NX_LENGTH     nxdl:NX_ANGLE     nxdl:NX_UNITLESS    ")] []];
 n "simpleType" [("name", "NX_UNITLESS")] [
  n "annotation" [] [];
  n "restriction" [("base", "xs:string")] []];
 n "simpleType" [("name", "NX_VOLTAGE")] [
  n "annotation" [] [];
  n "restriction" [("base", "xs:string")] []];
 n "simpleType" [("name", "NX_VOLUME")] [
  n "annotation" [] [];
  n "restriction" [("base", "xs:string")] []];
 n "simpleType" [("name", "NX_WAVELENGTH")] [
  n "annotation" [] [];
  n "restriction" [("base", "xs:string")] []];
 n "simpleType" [("name", "NX_WAVENUMBER")] [
  n "annotation" [] [];
  SComment;
  SComment;
  n "restriction" [("base", "xs:string")] []];
 SComment;
 n "simpleType" [("name", "primitiveType")] [
  n "annotation" [] [];
  n "list" [("itemType", "nxdl:NAPI")] []];
 n "simpleType" [("name", "NAPI")] [
  n "annotation" [] [];
  n "union" [("memberTypes", "    nxdl:NX_CHAR    nxdl:NX_FLOAT    nxdl:NX_INT    nxdl:NX_UINT    nxdl:NX_POSINT    nxdl:NX_NUMBER    nxdl:NX_DATE_TIME    nxdl:NX_BOOLEAN    nxdl:NX_BINARY    nxdl:ISO8601    ")] []];
 n "simpleType" [("name", "NX_CHAR")] [
  n "annotation" [] [];
  n "restriction" [("base", "xs:string")] []];
 n "simpleType" [("name", "NX_FLOAT")] [
  n "annotation" [] [];
  n "restriction" [("base", "xs:float")] []];
 n "simpleType" [("name", "NX_INT")] [
  n "annotation" [] [];
  n "restriction" [("base", "xs:integer")] []];
 n "simpleType" [("name", "NX_UINT")] [
  n "annotation" [] [];
  n "restriction" [("base", "xs:unsignedInt")] []];
 n "simpleType" [("name", "NX_POSINT")] [
  n "annotation" [] [];
  n "restriction" [("base", "xs:positiveInteger")] []];
 n "simpleType" [("name", "NX_NUMBER")] [
  n "annotation" [] [];
  n "union" [("memberTypes", "    nxdl:NX_INT     nxdl:NX_UINT     nxdl:NX_POSINT     nxdl:NX_FLOAT    ")] []];
 n "simpleType" [("name", "NX_DATE_TIME")] [
  n "annotation" [] [];
  n "restriction" [("base", "nxdl:ISO8601")] []];
 n "simpleType" [("name", "ISO8601")] [
  n "annotation" [] [];
  n "restriction" [("base", "xs:dateTime")] []];
 n "simpleType" [("name", "NX_BOOLEAN")] [
  n "annotation" [] [];
  n "restriction" [("base", "xs:boolean")] []];
 n "simpleType" [("name", "NX_BINARY")] [
  n "annotation" [] [];
  SComment;
  SComment;
  n "restriction" [("base", "xs:unsignedByte")] []]].

(** /repo/punx/cache/a4fd52d/nxdl.xsd *)
Definition nxdl_a4fd52d : list snode := [
 n "annotation" [] [];
 SComment;
 n "include" [("schemaLocation", "nxdlTypes.xsd")] [
  n "annotation" [] []];
 SComment;
 SComment;
 n "element" [("name", "definition"); ("type", "nx:definitionType")] [
  n "annotation" [] []];
 SComment;
 n "simpleType" [("name", "validItemName")] [
  n "annotation" [] [];
  n "restriction" [("base", "xs:token")] [
   n "pattern" [("value", "[A-Za-z_][\w_]*")] [];
   n "maxLength" [("value", "63")] [];
   SComment]];
 n "simpleType" [("name", "validNXClassName")] [
  n "annotation" [] [];
  n "restriction" [("base", "nx:validItemName")] [
   n "pattern" [("value", "NX.+")] []]];
 n "simpleType" [("name", "validTargetName")] [
  n "annotation" [] [];
  n "restriction" [("base", "xs:token")] [
   n "annotation" [] [];
   n "pattern" [("value", "(/[a-zA-Z_][\w_]*(:[a-zA-Z_][\w_]*)?)+")] []]];
 SComment;
 n "attributeGroup" [("name", "deprecatedAttributeGroup")] [
  n "attribute" [("name", "deprecated"); ("use", "optional")] [
   n "annotation" [] [];
   n "simpleType" [] [
    n "restriction" [("base", "xs:string")] [
     n "pattern" [("value", ".*(\w+).*")] []]]]];
 n "complexType" [("name", "definitionType")] [
  n "annotation" [] [];
  n "sequence" [] [
   n "element" [("name", "symbols"); ("type", "nx:symbolsType"); ("minOccurs", "0"); ("maxOccurs", "1")] [
    n "annotation" [] []];
   n "group" [("ref", "nx:groupGroup"); ("minOccurs", "0"); ("maxOccurs", "unbounded")] [
    n "annotation" [] []]];
  n "attribute" [("name", "name"); ("use", "required"); ("type", "nx:validItemName")] [
   n "annotation" [] []];
  n "attribute" [("name", "version"); ("use", "required")] [
   n "annotation" [] []];
  n "attribute" [("name", "type"); ("use", "required"); ("type", "nx:definitionTypeAttr")] [
   n "annotation" [] []];
  n "attribute" [("name", "extends"); ("use", "optional")] [
   n "annotation" [] []];
  n "attribute" [("name", "restricts"); ("use", "optional")] [
   n "annotation" [] []];
  n "attribute" [("name", "svnid"); ("use", "optional")] [
   n "annotation" [] []];
  n "attribute" [("name", "category"); ("use", "required")] [
   n "annotation" [] [];
   n "simpleType" [] [
    n "restriction" [("base", "xs:string")] [
     n "enumeration" [("value", "base")] [];
     n "enumeration" [("value", "application")] [];
     n "enumeration" [("value", "contributed")] []]]];
  n "attribute" [("name", "ignoreExtraGroups"); ("use", "optional"); ("type", "nx:NX_BOOLEAN"); ("default", "false")] [
   n "annotation" [] []];
  n "attribute" [("name", "ignoreExtraFields"); ("use", "optional"); ("type", "nx:NX_BOOLEAN"); ("default", "false")] [
   n "annotation" [] []];
  n "attribute" [("name", "ignoreExtraAttributes"); ("use", "optional"); ("type", "nx:NX_BOOLEAN"); ("default", "false")] [
   n "annotation" [] []];
  n "attributeGroup" [("ref", "nx:deprecatedAttributeGroup")] []];
 n "simpleType" [("name", "definitionTypeAttr")] [
  n "annotation" [] [];
  n "restriction" [("base", "xs:string")] [
   n "enumeration" [("value", "group")] [];
   n "enumeration" [("value", "definition")] []]];
 SComment;
 n "complexType" [("name", "groupType")] [
  n "annotation" [] [];
  n "group" [("ref", "nx:groupGroup"); ("minOccurs", "0"); ("maxOccurs", "unbounded")] [
   n "annotation" [] []];
  n "attribute" [("name", "type"); ("use", "required"); ("type", "nx:validNXClassName")] [
   n "annotation" [] []];
  n "attribute" [("name", "name"); ("use", "optional"); ("type", "nx:validItemName")] [
   n "annotation" [] []];
  n "attribute" [("name", "minOccurs"); ("use", "optional"); ("default", "0"); ("type", "nx:nonNegativeUnbounded")] [
   n "annotation" [] []];
  n "attribute" [("name", "maxOccurs"); ("use", "optional"); ("type", "nx:nonNegativeUnbounded")] [
   n "annotation" [] []];
  n "attributeGroup" [("ref", "nx:deprecatedAttributeGroup")] []];
 n "group" [("name", "groupGroup")] [
  n "annotation" [] [];
  n "sequence" [] [
   n "element" [("name", "doc"); ("type", "nx:docType"); ("minOccurs", "0"); ("maxOccurs", "1")] [
    n "annotation" [] []];
   n "element" [("name", "attribute"); ("type", "nx:attributeType"); ("minOccurs", "0"); ("maxOccurs", "unbounded")] [
    n "annotation" [] []];
   n "element" [("name", "group"); ("type", "nx:groupType"); ("minOccurs", "0"); ("maxOccurs", "unbounded")] [
    n "annotation" [] []];
   n "element" [("name", "field"); ("type", "nx:fieldType"); ("minOccurs", "0"); ("maxOccurs", "unbounded")] [
    n "annotation" [] []];
   n "element" [("name", "link"); ("type", "nx:linkType"); ("minOccurs", "0"); ("maxOccurs", "unbounded")] [
    n "annotation" [] []]]];
 SComment;
 n "complexType" [("name", "basicComponent")] [
  n "annotation" [] [];
  n "sequence" [] [
   n "element" [("name", "doc"); ("type", "nx:docType"); ("minOccurs", "0"); ("maxOccurs", "1")] [
    n "annotation" [] []]];
  n "attribute" [("name", "name"); ("use", "required"); ("type", "nx:validItemName")] [
   n "annotation" [] []];
  n "attributeGroup" [("ref", "nx:deprecatedAttributeGroup")] []];
 SComment;
 n "complexType" [("name", "fieldType")] [
  n "annotation" [] [];
  n "complexContent" [] [
   n "extension" [("base", "nx:basicComponent")] [
    n "sequence" [] [
     n "element" [("name", "dimensions"); ("type", "nx:dimensionsType"); ("minOccurs", "0"); ("maxOccurs", "1")] [
      n "annotation" [] []];
     n "element" [("name", "attribute"); ("type", "nx:attributeType"); ("minOccurs", "0"); ("maxOccurs", "unbounded")] [
      n "annotation" [] []];
     n "element" [("name", "enumeration"); ("type", "nx:enumerationType"); ("minOccurs", "0")] [
      n "annotation" [] []]];
    n "attribute" [("name", "units"); ("type", "nx:anyUnitsAttr")] [
     n "annotation" [] []];
    n "attribute" [("name", "long_name"); ("type", "nx:NX_CHAR")] [
     n "annotation" [] []];
    n "attribute" [("name", "signal"); ("type", "nx:NX_POSINT")] [
     n "annotation" [] []];
    n "attribute" [("name", "axes"); ("type", "nx:NX_CHAR")] [
     n "annotation" [] []];
    n "attribute" [("name", "axis"); ("type", "nx:NX_POSINT")] [
     n "annotation" [] []];
    n "attribute" [("name", "primary"); ("type", "nx:NX_POSINT")] [
     n "annotation" [] []];
    n "attribute" [("name", "type"); ("type", "nx:NAPI"); ("default", "NX_CHAR")] [
     n "annotation" [] []];
    n "attribute" [("name", "minOccurs"); ("use", "optional"); ("default", "0"); ("type", "nx:nonNegativeUnbounded")] [
     n "annotation" [] []];
    n "attribute" [("name", "maxOccurs"); ("use", "optional"); ("default", "1"); ("type", "nx:nonNegativeUnbounded")] [
     n "annotation" [] []];
    n "attribute" [("name", "stride"); ("use", "optional"); ("default", "1"); ("type", "nx:NX_INT")] [
     n "annotation" [] []];
    n "attribute" [("name", "data_offset"); ("use", "optional"); ("default", "1"); ("type", "nx:nonNegativeUnbounded")] [
     n "annotation" [] []];
    n "attribute" [("name", "interpretation"); ("use", "optional")] [
     n "annotation" [] [];
     n "simpleType" [] [
      n "restriction" [("base", "xs:string")] [
       n "enumeration" [("value", "scalar")] [];
       n "enumeration" [("value", "spectrum")] [];
       n "enumeration" [("value", "image")] [];
       n "enumeration" [("value", "vertex")] []]]];
    n "attribute" [("name", "nameType"); ("use", "optional"); ("default", "specified")] [
     n "annotation" [] [];
     n "simpleType" [] [
      n "restriction" [("base", "xs:string")] [
       n "enumeration" [("value", "specified")] [];
       n "enumeration" [("value", "any")] []]]]]]];
 n "complexType" [("name", "attributeType")] [
  n "annotation" [] [];
  n "sequence" [] [
   n "element" [("name", "doc"); ("type", "nx:docType"); ("minOccurs", "0")] [
    n "annotation" [] []];
   n "element" [("name", "enumeration"); ("type", "nx:enumerationType"); ("minOccurs", "0")] [
    n "annotation" [] []]];
  n "attribute" [("name", "name"); ("use", "required"); ("type", "nx:validItemName")] [
   n "annotation" [] []];
  n "attribute" [("name", "type"); ("type", "nx:primitiveType"); ("default", "NX_CHAR")] [
   n "annotation" [] []];
  n "attribute" [("name", "optional"); ("type", "nx:NX_BOOLEAN"); ("default", "true")] [
   n "annotation" [] []];
  n "attributeGroup" [("ref", "nx:deprecatedAttributeGroup")] []];
 n "simpleType" [("name", "nonNegativeUnbounded")] [
  n "annotation" [] [];
  n "union" [] [
   n "simpleType" [] [
    n "restriction" [("base", "xs:nonNegativeInteger")] []];
   n "simpleType" [] [
    n "restriction" [("base", "xs:string")] [
     n "enumeration" [("value", "unbounded")] []]]]];
 SComment;
 n "complexType" [("name", "linkType")] [
  n "annotation" [] [];
  n "complexContent" [] [
   n "extension" [("base", "nx:basicComponent")] [
    n "attribute" [("name", "target"); ("use", "required"); ("type", "nx:validTargetName")] [
     n "annotation" [] []]]]];
 n "complexType" [("name", "docType"); ("mixed", "true")] [
  n "annotation" [] [];
  n "sequence" [] [
   n "any" [("minOccurs", "0"); ("maxOccurs", "unbounded"); ("processContents", "lax")] []]];
 n "complexType" [("name", "symbolsType"); ("mixed", "true")] [
  n "annotation" [] [];
  n "sequence" [] [
   n "element" [("name", "doc"); ("type", "nx:docType"); ("minOccurs", "0"); ("maxOccurs", "1")] [
    n "annotation" [] []];
   n "element" [("name", "symbol"); ("minOccurs", "0"); ("maxOccurs", "unbounded")] [
    n "annotation" [] [];
    n "complexType" [] [
     n "sequence" [] [
      n "element" [("name", "doc"); ("type", "nx:docType"); ("minOccurs", "0"); ("maxOccurs", "1")] [
       n "annotation" [] []]];
     n "attribute" [("name", "name"); ("type", "nx:validItemName")] [
      n "annotation" [] []]]]]];
 n "complexType" [("name", "enumerationType")] [
  n "annotation" [] [];
  n "sequence" [] [
   n "element" [("name", "item"); ("minOccurs", "1"); ("maxOccurs", "unbounded")] [
    n "annotation" [] [];
    n "complexType" [] [
     n "annotation" [] [];
     n "sequence" [] [
      n "element" [("name", "doc"); ("type", "nx:docType"); ("minOccurs", "0"); ("maxOccurs", "1")] [
       n "annotation" [] []]];
     n "attribute" [("name", "value"); ("use", "required")] [
      n "annotation" [] []]]]]];
 n "complexType" [("name", "dimensionsType")] [
  SComment;
  n "annotation" [] [];
  n "sequence" [] [
   n "element" [("name", "doc"); ("type", "nx:docType"); ("minOccurs", "0")] [
    n "annotation" [] []];
   n "element" [("name", "dim"); ("minOccurs", "0"); ("maxOccurs", "unbounded")] [
    n "annotation" [] [];
    n "complexType" [] [
     n "attribute" [("name", "index"); ("use", "required")] [
      n "annotation" [] []];
     n "attribute" [("name", "value"); ("type", "nx:NX_CHAR")] [
      n "annotation" [] []];
     n "attribute" [("name", "ref"); ("type", "nx:NX_CHAR")] [
      n "annotation" [] []];
     n "attribute" [("name", "refindex"); ("type", "nx:NX_CHAR")] [
      n "annotation" [] []];
     n "attribute" [("name", "incr"); ("type", "nx:NX_CHAR")] [
      n "annotation" [] []]]]];
  n "attribute" [("name", "rank"); ("type", "nx:NX_CHAR")] [
   n "annotation" [] []]]].

(** /repo/punx/cache/a4fd52d/nxdlTypes.xsd *)
Definition nxdlTypes_a4fd52d : list snode := [
 n "annotation" [] [];
 SComment;
 n "simpleType" [("name", "anyUnitsAttr")] [
  n "annotation" [] [];
  n "restriction" [("base", "xs:string")] [
   n "enumeration" [("value", "NX_ANGLE")] [
    n "annotation" [] []];
   n "enumeration" [("value", "NX_ANY")] [
    n "annotation" [] []];
   n "enumeration" [("value", "NX_AREA")] [
    n "annotation" [] []];
   n "enumeration" [("value", "NX_CROSS_SECTION")] [
    n "annotation" [] []];
   n "enumeration" [("value", "NX_CHARGE")] [
    n "annotation" [] []];
   n "enumeration" [("value", "NX_CURRENT")] [
    n "annotation" [] []];
   n "enumeration" [("value", "NX_DIMENSIONLESS")] [
    n "annotation" [] []];
   n "enumeration" [("value", "NX_EMITTANCE")] [
    n "annotation" [] []];
   n "enumeration" [("value", "NX_ENERGY")] [
    n "annotation" [] []];
   n "enumeration" [("value", "NX_FLUX")] [
    n "annotation" [] []];
   n "enumeration" [("value", "NX_FREQUENCY")] [
    n "annotation" [] []];
   n "enumeration" [("value", "NX_LENGTH")] [
    n "annotation" [] []];
   n "enumeration" [("value", "NX_MASS")] [
    n "annotation" [] []];
   n "enumeration" [("value", "NX_MASS_DENSITY")] [
    n "annotation" [] []];
   n "enumeration" [("value", "NX_MOLECULAR_WEIGHT")] [
    n "annotation" [] []];
   n "enumeration" [("value", "NX_PER_AREA")] [
    n "annotation" [] []];
   n "enumeration" [("value", "NX_PER_LENGTH")] [
    n "annotation" [] []];
   n "enumeration" [("value", "NX_PERIOD")] [
    n "annotation" [] []];
   n "enumeration" [("value", "NX_POWER")] [
    n "annotation" [] []];
   n "enumeration" [("value", "NX_PRESSURE")] [
    n "annotation" [] []];
   n "enumeration" [("value", "NX_PULSES")] [
    n "annotation" [] []];
   n "enumeration" [("value", "NX_SCATTERING_LENGTH_DENSITY")] [
    n "annotation" [] []];
   n "enumeration" [("value", "NX_SOLID_ANGLE")] [
    n "annotation" [] []];
   n "enumeration" [("value", "NX_TEMPERATURE")] [
    n "annotation" [] []];
   n "enumeration" [("value", "NX_TIME")] [
    n "annotation" [] []];
   n "enumeration" [("value", "NX_TIME_OF_FLIGHT")] [
    n "annotation" [] []];
   n "enumeration" [("value", "NX_VOLTAGE")] [
    n "annotation" [] []];
   n "enumeration" [("value", "NX_VOLUME")] [
    n "annotation" [] []];
   n "enumeration" [("value", "NX_UNITLESS")] [
    n "annotation" [] []];
   n "enumeration" [("value", "NX_WAVELENGTH")] [
    n "annotation" [] []];
   n "enumeration" [("value", "NX_WAVENUMBER")] [
    n "annotation" [] []]]];
 SComment;
 n "simpleType" [("name", "primitiveType")] [
  n "annotation" [] [];
  n "list" [("itemType", "nxdl:NAPI")] []];
 n "simpleType" [("name", "NAPI")] [
  n "annotation" [] [];
  n "restriction" [("base", "xs:string")] [
   n "enumeration" [("value", "NX_CHAR")] [
    n "annotation" [] []];
   n "enumeration" [("value", "NX_FLOAT")] [
    n "annotation" [] []];
   n "enumeration" [("value", "NX_INT")] [
    n "annotation" [] []];
   n "enumeration" [("value", "NX_UINT")] [
    n "annotation" [] []];
   n "enumeration" [("value", "NX_POSINT")] [
    n "annotation" [] []];
   n "enumeration" [("value", "NX_NUMBER")] [
    n "annotation" [] []];
   n "enumeration" [("value", "NX_DATE_TIME")] [
    n "annotation" [] []];
   n "enumeration" [("value", "ISO8601")] [
    n "annotation" [] []];
   n "enumeration" [("value", "NX_BOOLEAN")] [
    n "annotation" [] []];
   n "enumeration" [("value", "NX_BINARY")] [
    n "annotation" [] []]]];
 n "simpleType" [("name", "NX_CHAR")] [
  n "annotation" [] [];
  n "restriction" [("base", "xs:string")] []];
 n "simpleType" [("name", "NX_FLOAT")] [
  n "annotation" [] [];
  n "restriction" [("base", "xs:float")] []];
 n "simpleType" [("name", "NX_INT")] [
  n "annotation" [] [];
  n "restriction" [("base", "xs:integer")] []];
 n "simpleType" [("name", "NX_UINT")] [
  n "annotation" [] [];
  n "restriction" [("base", "xs:unsignedInt")] []];
 n "simpleType" [("name", "NX_POSINT")] [
  n "annotation" [] [];
  n "restriction" [("base", "xs:positiveInteger")] []];
 n "simpleType" [("name", "NX_NUMBER")] [
  n "annotation" [] [];
  n "union" [("memberTypes", "nxdl:NX_INT nxdl:NX_UINT nxdl:NX_POSINT nxdl:NX_FLOAT")] []];
 n "simpleType" [("name", "NX_DATE_TIME")] [
  n "annotation" [] [];
  n "restriction" [("base", "nxdl:ISO8601")] []];
 n "simpleType" [("name", "ISO8601")] [
  n "annotation" [] [];
  n "restriction" [("base", "xs:dateTime")] []];
 n "simpleType" [("name", "NX_BOOLEAN")] [
  n "annotation" [] [];
  n "restriction" [("base", "xs:boolean")] []];
 n "simpleType" [("name", "NX_BINARY")] [
  n "annotation" [] [];
  SComment;
  SComment;
  n "restriction" [("base", "xs:unsignedByte")] []]].
