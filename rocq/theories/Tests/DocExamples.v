(** The examples of the documentation, /repo/examples, from the command line to the
    texts of the files (of XLSX input: cells; of XML output and XML schemas: the
    elements): made by tools/examples.py.  Left out: the help texts.  These are
    tests, evaluated when this file is compiled; nothing is proved here. *)
From Coq Require Import String.
From Verif.Base Require Import PyStr PyNum PyVal PyDict Outcome.
From Verif.Model Require Import Readers Schema SortXml.
From Verif.Tests Require Import ExampleLib.
Local Open Scope list_scope.

(** examples/iati/iati-activities-schema.xsd *)
Definition xsd_0 : xel :=
  (El (u "xsd:schema") [((u "version"), (u "2.03"))] None [(El (u "xsd:include") [((u "schemaLocation"), (u "iati-common.xsd"))] None []);
   (El (u "xsd:import") [((u "namespace"), (u "http://www.w3.org/XML/1998/namespace")); ((u "schemaLocation"), (u "xml.xsd"))] None []);
   (El (u "xsd:element") [((u "name"), (u "iati-activities"))] None [(El (u "xsd:complexType") [] None [(El (u "xsd:sequence") [] None [(El (u "xsd:element") [((u "ref"), (u "iati-activity")); ((u "minOccurs"), (u "1")); ((u "maxOccurs"), (u "unbounded"))] None []);
   (El (u "xsd:any") [((u "namespace"), (u "##other")); ((u "processContents"), (u "lax")); ((u "minOccurs"), (u "0")); ((u "maxOccurs"), (u "unbounded"))] None [])]);
   (El (u "xsd:attribute") [((u "name"), (u "version")); ((u "type"), (u "xsd:string")); ((u "use"), (u "required"))] None []);
   (El (u "xsd:attribute") [((u "name"), (u "generated-datetime")); ((u "type"), (u "xsd:dateTime")); ((u "use"), (u "optional"))] None []);
   (El (u "xsd:attribute") [((u "name"), (u "linked-data-default")); ((u "type"), (u "xsd:anyURI")); ((u "use"), (u "optional"))] None []);
   (El (u "xsd:anyAttribute") [((u "processContents"), (u "lax")); ((u "namespace"), (u "##other"))] None [])])]);
   (El (u "xsd:element") [((u "name"), (u "iati-activity"))] None [(El (u "xsd:complexType") [] None [(El (u "xsd:sequence") [] None [(El (u "xsd:element") [((u "ref"), (u "iati-identifier")); ((u "minOccurs"), (u "1")); ((u "maxOccurs"), (u "1"))] None []);
   (El (u "xsd:element") [((u "ref"), (u "reporting-org")); ((u "minOccurs"), (u "1")); ((u "maxOccurs"), (u "1"))] None []);
   (El (u "xsd:element") [((u "name"), (u "title")); ((u "type"), (u "textRequiredType")); ((u "minOccurs"), (u "1")); ((u "maxOccurs"), (u "1"))] None []);
   (El (u "xsd:element") [((u "name"), (u "description")); ((u "minOccurs"), (u "1")); ((u "maxOccurs"), (u "unbounded"))] None [(El (u "xsd:complexType") [] None [(El (u "xsd:sequence") [] None [(El (u "xsd:element") [((u "ref"), (u "narrative")); ((u "minOccurs"), (u "1")); ((u "maxOccurs"), (u "unbounded"))] None []);
   (El (u "xsd:any") [((u "namespace"), (u "##other")); ((u "processContents"), (u "lax")); ((u "minOccurs"), (u "0")); ((u "maxOccurs"), (u "unbounded"))] None [])]);
   (El (u "xsd:attribute") [((u "name"), (u "type")); ((u "use"), (u "optional")); ((u "type"), (u "xsd:string"))] None []);
   (El (u "xsd:anyAttribute") [((u "processContents"), (u "lax")); ((u "namespace"), (u "##other"))] None [])])]);
   (El (u "xsd:element") [((u "ref"), (u "participating-org")); ((u "minOccurs"), (u "1")); ((u "maxOccurs"), (u "unbounded"))] None []);
   (El (u "xsd:element") [((u "ref"), (u "other-identifier")); ((u "minOccurs"), (u "0")); ((u "maxOccurs"), (u "unbounded"))] None []);
   (El (u "xsd:element") [((u "ref"), (u "activity-status")); ((u "minOccurs"), (u "1")); ((u "maxOccurs"), (u "1"))] None []);
   (El (u "xsd:element") [((u "ref"), (u "activity-date")); ((u "minOccurs"), (u "1")); ((u "maxOccurs"), (u "unbounded"))] None []);
   (El (u "xsd:element") [((u "ref"), (u "contact-info")); ((u "minOccurs"), (u "0")); ((u "maxOccurs"), (u "unbounded"))] None []);
   (El (u "xsd:element") [((u "ref"), (u "activity-scope")); ((u "minOccurs"), (u "0")); ((u "maxOccurs"), (u "1"))] None []);
   (El (u "xsd:element") [((u "ref"), (u "recipient-country")); ((u "minOccurs"), (u "0")); ((u "maxOccurs"), (u "unbounded"))] None []);
   (El (u "xsd:element") [((u "ref"), (u "recipient-region")); ((u "minOccurs"), (u "0")); ((u "maxOccurs"), (u "unbounded"))] None []);
   (El (u "xsd:element") [((u "ref"), (u "location")); ((u "minOccurs"), (u "0")); ((u "maxOccurs"), (u "unbounded"))] None []);
   (El (u "xsd:element") [((u "ref"), (u "sector")); ((u "minOccurs"), (u "0")); ((u "maxOccurs"), (u "unbounded"))] None []);
   (El (u "xsd:element") [((u "ref"), (u "tag")); ((u "minOccurs"), (u "0")); ((u "maxOccurs"), (u "unbounded"))] None []);
   (El (u "xsd:element") [((u "ref"), (u "country-budget-items")); ((u "minOccurs"), (u "0")); ((u "maxOccurs"), (u "1"))] None []);
   (El (u "xsd:element") [((u "ref"), (u "humanitarian-scope")); ((u "minOccurs"), (u "0")); ((u "maxOccurs"), (u "unbounded"))] None []);
   (El (u "xsd:element") [((u "ref"), (u "policy-marker")); ((u "minOccurs"), (u "0")); ((u "maxOccurs"), (u "unbounded"))] None []);
   (El (u "xsd:element") [((u "ref"), (u "collaboration-type")); ((u "minOccurs"), (u "0")); ((u "maxOccurs"), (u "1"))] None []);
   (El (u "xsd:element") [((u "ref"), (u "default-flow-type")); ((u "minOccurs"), (u "0")); ((u "maxOccurs"), (u "1"))] None []);
   (El (u "xsd:element") [((u "ref"), (u "default-finance-type")); ((u "minOccurs"), (u "0")); ((u "maxOccurs"), (u "1"))] None []);
   (El (u "xsd:element") [((u "ref"), (u "default-aid-type")); ((u "minOccurs"), (u "0")); ((u "maxOccurs"), (u "unbounded"))] None []);
   (El (u "xsd:element") [((u "ref"), (u "default-tied-status")); ((u "minOccurs"), (u "0")); ((u "maxOccurs"), (u "1"))] None []);
   (El (u "xsd:element") [((u "ref"), (u "budget")); ((u "minOccurs"), (u "0")); ((u "maxOccurs"), (u "unbounded"))] None []);
   (El (u "xsd:element") [((u "ref"), (u "planned-disbursement")); ((u "minOccurs"), (u "0")); ((u "maxOccurs"), (u "unbounded"))] None []);
   (El (u "xsd:element") [((u "ref"), (u "capital-spend")); ((u "minOccurs"), (u "0")); ((u "maxOccurs"), (u "1"))] None []);
   (El (u "xsd:element") [((u "ref"), (u "transaction")); ((u "minOccurs"), (u "0")); ((u "maxOccurs"), (u "unbounded"))] None []);
   (El (u "xsd:element") [((u "name"), (u "document-link")); ((u "minOccurs"), (u "0")); ((u "maxOccurs"), (u "unbounded")); ((u "type"), (u "documentLinkBase"))] None []);
   (El (u "xsd:element") [((u "ref"), (u "related-activity")); ((u "minOccurs"), (u "0")); ((u "maxOccurs"), (u "unbounded"))] None []);
   (El (u "xsd:element") [((u "ref"), (u "legacy-data")); ((u "minOccurs"), (u "0")); ((u "maxOccurs"), (u "unbounded"))] None []);
   (El (u "xsd:element") [((u "ref"), (u "conditions")); ((u "minOccurs"), (u "0")); ((u "maxOccurs"), (u "1"))] None []);
   (El (u "xsd:element") [((u "ref"), (u "result")); ((u "minOccurs"), (u "0")); ((u "maxOccurs"), (u "unbounded"))] None []);
   (El (u "xsd:element") [((u "ref"), (u "crs-add")); ((u "minOccurs"), (u "0")); ((u "maxOccurs"), (u "1"))] None []);
   (El (u "xsd:element") [((u "ref"), (u "fss")); ((u "minOccurs"), (u "0")); ((u "maxOccurs"), (u "1"))] None []);
   (El (u "xsd:any") [((u "namespace"), (u "##other")); ((u "processContents"), (u "lax")); ((u "minOccurs"), (u "0")); ((u "maxOccurs"), (u "unbounded"))] None [])]);
   (El (u "xsd:attribute") [((u "name"), (u "last-updated-datetime")); ((u "type"), (u "xsd:dateTime")); ((u "use"), (u "optional"))] None []);
   (El (u "xsd:attribute") [((u "ref"), (u "xml:lang"))] None []);
   (El (u "xsd:attribute") [((u "name"), (u "default-currency")); ((u "type"), (u "xsd:string")); ((u "use"), (u "optional"))] None []);
   (El (u "xsd:attribute") [((u "name"), (u "humanitarian")); ((u "type"), (u "xsd:boolean")); ((u "use"), (u "optional"))] None []);
   (El (u "xsd:attribute") [((u "name"), (u "hierarchy")); ((u "type"), (u "xsd:int")); ((u "use"), (u "optional"))] None []);
   (El (u "xsd:attribute") [((u "name"), (u "linked-data-uri")); ((u "type"), (u "xsd:anyURI")); ((u "use"), (u "optional"))] None []);
   (El (u "xsd:attribute") [((u "name"), (u "budget-not-provided")); ((u "type"), (u "xsd:string")); ((u "use"), (u "optional"))] None []);
   (El (u "xsd:anyAttribute") [((u "processContents"), (u "lax")); ((u "namespace"), (u "##other"))] None [])])]);
   (El (u "xsd:element") [((u "name"), (u "iati-identifier"))] None [(El (u "xsd:complexType") [] None [(El (u "xsd:simpleContent") [] None [(El (u "xsd:extension") [((u "base"), (u "xsd:string"))] None [(El (u "xsd:anyAttribute") [((u "processContents"), (u "lax")); ((u "namespace"), (u "##other"))] None [])])])])]);
   (El (u "xsd:element") [((u "name"), (u "participating-org"))] None [(El (u "xsd:complexType") [] None [(El (u "xsd:sequence") [] None [(El (u "xsd:element") [((u "ref"), (u "narrative")); ((u "minOccurs"), (u "0")); ((u "maxOccurs"), (u "unbounded"))] None []);
   (El (u "xsd:any") [((u "namespace"), (u "##other")); ((u "processContents"), (u "lax")); ((u "minOccurs"), (u "0")); ((u "maxOccurs"), (u "unbounded"))] None [])]);
   (El (u "xsd:attribute") [((u "name"), (u "ref")); ((u "use"), (u "optional")); ((u "type"), (u "xsd:string"))] None []);
   (El (u "xsd:attribute") [((u "name"), (u "type")); ((u "use"), (u "optional")); ((u "type"), (u "xsd:string"))] None []);
   (El (u "xsd:attribute") [((u "name"), (u "role")); ((u "type"), (u "xsd:string")); ((u "use"), (u "required"))] None []);
   (El (u "xsd:attribute") [((u "name"), (u "activity-id")); ((u "type"), (u "xsd:string")); ((u "use"), (u "optional"))] None []);
   (El (u "xsd:attribute") [((u "name"), (u "crs-channel-code")); ((u "type"), (u "xsd:string")); ((u "use"), (u "optional"))] None []);
   (El (u "xsd:anyAttribute") [((u "processContents"), (u "lax")); ((u "namespace"), (u "##other"))] None [])])]);
   (El (u "xsd:element") [((u "name"), (u "activity-scope"))] None [(El (u "xsd:complexType") [] None [(El (u "xsd:sequence") [] None [(El (u "xsd:any") [((u "namespace"), (u "##other")); ((u "processContents"), (u "lax")); ((u "minOccurs"), (u "0")); ((u "maxOccurs"), (u "unbounded"))] None [])]);
   (El (u "xsd:attribute") [((u "name"), (u "code")); ((u "type"), (u "xsd:string")); ((u "use"), (u "required"))] None []);
   (El (u "xsd:anyAttribute") [((u "processContents"), (u "lax")); ((u "namespace"), (u "##other"))] None [])])]);
   (El (u "xsd:element") [((u "name"), (u "recipient-country"))] None [(El (u "xsd:complexType") [] None [(El (u "xsd:sequence") [] None [(El (u "xsd:element") [((u "ref"), (u "narrative")); ((u "minOccurs"), (u "0")); ((u "maxOccurs"), (u "unbounded"))] None []);
   (El (u "xsd:any") [((u "namespace"), (u "##other")); ((u "processContents"), (u "lax")); ((u "minOccurs"), (u "0")); ((u "maxOccurs"), (u "unbounded"))] None [])]);
   (El (u "xsd:attribute") [((u "name"), (u "code")); ((u "type"), (u "xsd:string")); ((u "use"), (u "required"))] None []);
   (El (u "xsd:attribute") [((u "name"), (u "percentage")); ((u "use"), (u "optional")); ((u "type"), (u "xsd:decimal"))] None []);
   (El (u "xsd:anyAttribute") [((u "processContents"), (u "lax")); ((u "namespace"), (u "##other"))] None [])])]);
   (El (u "xsd:element") [((u "name"), (u "recipient-region"))] None [(El (u "xsd:complexType") [] None [(El (u "xsd:sequence") [] None [(El (u "xsd:element") [((u "ref"), (u "narrative")); ((u "minOccurs"), (u "0")); ((u "maxOccurs"), (u "unbounded"))] None []);
   (El (u "xsd:any") [((u "namespace"), (u "##other")); ((u "processContents"), (u "lax")); ((u "minOccurs"), (u "0")); ((u "maxOccurs"), (u "unbounded"))] None [])]);
   (El (u "xsd:attribute") [((u "name"), (u "code")); ((u "type"), (u "xsd:string")); ((u "use"), (u "required"))] None []);
   (El (u "xsd:attribute") [((u "name"), (u "vocabulary")); ((u "type"), (u "xsd:string")); ((u "use"), (u "optional"))] None []);
   (El (u "xsd:attribute") [((u "name"), (u "vocabulary-uri")); ((u "type"), (u "xsd:anyURI")); ((u "use"), (u "optional"))] None []);
   (El (u "xsd:attribute") [((u "name"), (u "percentage")); ((u "use"), (u "optional")); ((u "type"), (u "xsd:decimal"))] None []);
   (El (u "xsd:anyAttribute") [((u "processContents"), (u "lax")); ((u "namespace"), (u "##other"))] None [])])]);
   (El (u "xsd:element") [((u "name"), (u "collaboration-type"))] None [(El (u "xsd:complexType") [] None [(El (u "xsd:sequence") [] None [(El (u "xsd:any") [((u "namespace"), (u "##other")); ((u "processContents"), (u "lax")); ((u "minOccurs"), (u "0")); ((u "maxOccurs"), (u "unbounded"))] None [])]);
   (El (u "xsd:attribute") [((u "name"), (u "code")); ((u "type"), (u "xsd:string")); ((u "use"), (u "required"))] None []);
   (El (u "xsd:anyAttribute") [((u "processContents"), (u "lax")); ((u "namespace"), (u "##other"))] None [])])]);
   (El (u "xsd:element") [((u "name"), (u "default-flow-type"))] None [(El (u "xsd:complexType") [] None [(El (u "xsd:sequence") [] None [(El (u "xsd:any") [((u "namespace"), (u "##other")); ((u "processContents"), (u "lax")); ((u "minOccurs"), (u "0")); ((u "maxOccurs"), (u "unbounded"))] None [])]);
   (El (u "xsd:attribute") [((u "name"), (u "code")); ((u "type"), (u "xsd:string")); ((u "use"), (u "required"))] None []);
   (El (u "xsd:anyAttribute") [((u "processContents"), (u "lax")); ((u "namespace"), (u "##other"))] None [])])]);
   (El (u "xsd:element") [((u "name"), (u "default-aid-type")); ((u "type"), (u "aidTypeBase"))] None []);
   (El (u "xsd:element") [((u "name"), (u "default-finance-type"))] None [(El (u "xsd:complexType") [] None [(El (u "xsd:sequence") [] None [(El (u "xsd:any") [((u "namespace"), (u "##other")); ((u "processContents"), (u "lax")); ((u "minOccurs"), (u "0")); ((u "maxOccurs"), (u "unbounded"))] None [])]);
   (El (u "xsd:attribute") [((u "name"), (u "code")); ((u "type"), (u "xsd:string")); ((u "use"), (u "required"))] None []);
   (El (u "xsd:anyAttribute") [((u "processContents"), (u "lax")); ((u "namespace"), (u "##other"))] None [])])]);
   (El (u "xsd:element") [((u "name"), (u "other-identifier"))] None [(El (u "xsd:complexType") [] None [(El (u "xsd:sequence") [] None [(El (u "xsd:element") [((u "name"), (u "owner-org")); ((u "minOccurs"), (u "0")); ((u "maxOccurs"), (u "1"))] None [(El (u "xsd:complexType") [] None [(El (u "xsd:sequence") [] None [(El (u "xsd:element") [((u "ref"), (u "narrative")); ((u "minOccurs"), (u "0")); ((u "maxOccurs"), (u "unbounded"))] None []);
   (El (u "xsd:any") [((u "namespace"), (u "##other")); ((u "processContents"), (u "lax")); ((u "minOccurs"), (u "0")); ((u "maxOccurs"), (u "unbounded"))] None [])]);
   (El (u "xsd:attribute") [((u "name"), (u "ref")); ((u "type"), (u "xsd:string")); ((u "use"), (u "optional"))] None []);
   (El (u "xsd:anyAttribute") [((u "processContents"), (u "lax")); ((u "namespace"), (u "##other"))] None [])])]);
   (El (u "xsd:any") [((u "namespace"), (u "##other")); ((u "processContents"), (u "lax")); ((u "minOccurs"), (u "0")); ((u "maxOccurs"), (u "unbounded"))] None [])]);
   (El (u "xsd:attribute") [((u "name"), (u "ref")); ((u "type"), (u "xsd:string")); ((u "use"), (u "required"))] None []);
   (El (u "xsd:attribute") [((u "name"), (u "type")); ((u "type"), (u "xsd:string")); ((u "use"), (u "required"))] None []);
   (El (u "xsd:anyAttribute") [((u "processContents"), (u "lax")); ((u "namespace"), (u "##other"))] None [])])]);
   (El (u "xsd:element") [((u "name"), (u "sector"))] None [(El (u "xsd:complexType") [] None [(El (u "xsd:sequence") [] None [(El (u "xsd:element") [((u "ref"), (u "narrative")); ((u "minOccurs"), (u "0")); ((u "maxOccurs"), (u "unbounded"))] None []);
   (El (u "xsd:any") [((u "namespace"), (u "##other")); ((u "processContents"), (u "lax")); ((u "minOccurs"), (u "0")); ((u "maxOccurs"), (u "unbounded"))] None [])]);
   (El (u "xsd:attribute") [((u "name"), (u "vocabulary")); ((u "type"), (u "xsd:string")); ((u "use"), (u "optional"))] None []);
   (El (u "xsd:attribute") [((u "name"), (u "vocabulary-uri")); ((u "type"), (u "xsd:anyURI")); ((u "use"), (u "optional"))] None []);
   (El (u "xsd:attribute") [((u "name"), (u "code")); ((u "type"), (u "xsd:string")); ((u "use"), (u "required"))] None []);
   (El (u "xsd:attribute") [((u "name"), (u "percentage")); ((u "use"), (u "optional")); ((u "type"), (u "xsd:decimal"))] None []);
   (El (u "xsd:anyAttribute") [((u "processContents"), (u "lax")); ((u "namespace"), (u "##other"))] None [])])]);
   (El (u "xsd:element") [((u "name"), (u "activity-date"))] None [(El (u "xsd:complexType") [] None [(El (u "xsd:sequence") [] None [(El (u "xsd:element") [((u "ref"), (u "narrative")); ((u "minOccurs"), (u "0")); ((u "maxOccurs"), (u "unbounded"))] None []);
   (El (u "xsd:any") [((u "namespace"), (u "##other")); ((u "processContents"), (u "lax")); ((u "minOccurs"), (u "0")); ((u "maxOccurs"), (u "unbounded"))] None [])]);
   (El (u "xsd:attribute") [((u "name"), (u "type")); ((u "use"), (u "required")); ((u "type"), (u "xsd:string"))] None []);
   (El (u "xsd:attribute") [((u "name"), (u "iso-date")); ((u "type"), (u "xsd:date")); ((u "use"), (u "required"))] None []);
   (El (u "xsd:anyAttribute") [((u "processContents"), (u "lax")); ((u "namespace"), (u "##other"))] None [])])]);
   (El (u "xsd:element") [((u "name"), (u "activity-status"))] None [(El (u "xsd:complexType") [] None [(El (u "xsd:sequence") [] None [(El (u "xsd:any") [((u "namespace"), (u "##other")); ((u "processContents"), (u "lax")); ((u "minOccurs"), (u "0")); ((u "maxOccurs"), (u "unbounded"))] None [])]);
   (El (u "xsd:attribute") [((u "name"), (u "code")); ((u "type"), (u "xsd:string")); ((u "use"), (u "required"))] None []);
   (El (u "xsd:anyAttribute") [((u "processContents"), (u "lax")); ((u "namespace"), (u "##other"))] None [])])]);
   (El (u "xsd:element") [((u "name"), (u "contact-info"))] None [(El (u "xsd:complexType") [] None [(El (u "xsd:sequence") [] None [(El (u "xsd:element") [((u "name"), (u "organisation")); ((u "type"), (u "textRequiredType")); ((u "minOccurs"), (u "0")); ((u "maxOccurs"), (u "1"))] None []);
   (El (u "xsd:element") [((u "name"), (u "department")); ((u "type"), (u "textRequiredType")); ((u "minOccurs"), (u "0")); ((u "maxOccurs"), (u "1"))] None []);
   (El (u "xsd:element") [((u "name"), (u "person-name")); ((u "type"), (u "textRequiredType")); ((u "minOccurs"), (u "0")); ((u "maxOccurs"), (u "1"))] None []);
   (El (u "xsd:element") [((u "name"), (u "job-title")); ((u "type"), (u "textRequiredType")); ((u "minOccurs"), (u "0")); ((u "maxOccurs"), (u "1"))] None []);
   (El (u "xsd:element") [((u "name"), (u "telephone")); ((u "minOccurs"), (u "0")); ((u "maxOccurs"), (u "unbounded"))] None [(El (u "xsd:complexType") [] None [(El (u "xsd:simpleContent") [] None [(El (u "xsd:extension") [((u "base"), (u "xsd:string"))] None [(El (u "xsd:anyAttribute") [((u "processContents"), (u "lax")); ((u "namespace"), (u "##other"))] None [])])])])]);
   (El (u "xsd:element") [((u "name"), (u "email")); ((u "minOccurs"), (u "0")); ((u "maxOccurs"), (u "unbounded"))] None [(El (u "xsd:complexType") [] None [(El (u "xsd:simpleContent") [] None [(El (u "xsd:extension") [((u "base"), (u "xsd:string"))] None [(El (u "xsd:anyAttribute") [((u "processContents"), (u "lax")); ((u "namespace"), (u "##other"))] None [])])])])]);
   (El (u "xsd:element") [((u "name"), (u "website")); ((u "minOccurs"), (u "0")); ((u "maxOccurs"), (u "unbounded"))] None [(El (u "xsd:complexType") [] None [(El (u "xsd:simpleContent") [] None [(El (u "xsd:extension") [((u "base"), (u "xsd:anyURI"))] None [(El (u "xsd:anyAttribute") [((u "processContents"), (u "lax")); ((u "namespace"), (u "##other"))] None [])])])])]);
   (El (u "xsd:element") [((u "name"), (u "mailing-address")); ((u "type"), (u "textRequiredType")); ((u "minOccurs"), (u "0")); ((u "maxOccurs"), (u "unbounded"))] None []);
   (El (u "xsd:any") [((u "namespace"), (u "##other")); ((u "processContents"), (u "lax")); ((u "minOccurs"), (u "0")); ((u "maxOccurs"), (u "unbounded"))] None [])]);
   (El (u "xsd:attribute") [((u "name"), (u "type")); ((u "use"), (u "optional")); ((u "type"), (u "xsd:string"))] None []);
   (El (u "xsd:anyAttribute") [((u "processContents"), (u "lax")); ((u "namespace"), (u "##other"))] None [])])]);
   (El (u "xsd:element") [((u "name"), (u "default-tied-status"))] None [(El (u "xsd:complexType") [] None [(El (u "xsd:sequence") [] None [(El (u "xsd:any") [((u "namespace"), (u "##other")); ((u "processContents"), (u "lax")); ((u "minOccurs"), (u "0")); ((u "maxOccurs"), (u "unbounded"))] None [])]);
   (El (u "xsd:attribute") [((u "name"), (u "code")); ((u "type"), (u "xsd:string")); ((u "use"), (u "required"))] None []);
   (El (u "xsd:anyAttribute") [((u "processContents"), (u "lax")); ((u "namespace"), (u "##other"))] None [])])]);
   (El (u "xsd:element") [((u "name"), (u "humanitarian-scope"))] None [(El (u "xsd:complexType") [] None [(El (u "xsd:sequence") [] None [(El (u "xsd:element") [((u "ref"), (u "narrative")); ((u "minOccurs"), (u "0")); ((u "maxOccurs"), (u "unbounded"))] None []);
   (El (u "xsd:any") [((u "namespace"), (u "##other")); ((u "processContents"), (u "lax")); ((u "minOccurs"), (u "0")); ((u "maxOccurs"), (u "unbounded"))] None [])]);
   (El (u "xsd:attribute") [((u "name"), (u "type")); ((u "use"), (u "required")); ((u "type"), (u "xsd:string"))] None []);
   (El (u "xsd:attribute") [((u "name"), (u "vocabulary")); ((u "use"), (u "required")); ((u "type"), (u "xsd:string"))] None []);
   (El (u "xsd:attribute") [((u "name"), (u "vocabulary-uri")); ((u "type"), (u "xsd:anyURI")); ((u "use"), (u "optional"))] None []);
   (El (u "xsd:attribute") [((u "name"), (u "code")); ((u "type"), (u "xsd:string")); ((u "use"), (u "required"))] None []);
   (El (u "xsd:anyAttribute") [((u "processContents"), (u "lax")); ((u "namespace"), (u "##other"))] None [])])]);
   (El (u "xsd:element") [((u "name"), (u "policy-marker"))] None [(El (u "xsd:complexType") [] None [(El (u "xsd:sequence") [] None [(El (u "xsd:element") [((u "ref"), (u "narrative")); ((u "minOccurs"), (u "0")); ((u "maxOccurs"), (u "unbounded"))] None []);
   (El (u "xsd:any") [((u "namespace"), (u "##other")); ((u "processContents"), (u "lax")); ((u "minOccurs"), (u "0")); ((u "maxOccurs"), (u "unbounded"))] None [])]);
   (El (u "xsd:attribute") [((u "name"), (u "vocabulary")); ((u "type"), (u "xsd:string")); ((u "use"), (u "optional"))] None []);
   (El (u "xsd:attribute") [((u "name"), (u "vocabulary-uri")); ((u "type"), (u "xsd:anyURI")); ((u "use"), (u "optional"))] None []);
   (El (u "xsd:attribute") [((u "name"), (u "code")); ((u "type"), (u "xsd:string")); ((u "use"), (u "required"))] None []);
   (El (u "xsd:attribute") [((u "name"), (u "significance")); ((u "type"), (u "xsd:string")); ((u "use"), (u "optional"))] None []);
   (El (u "xsd:anyAttribute") [((u "processContents"), (u "lax")); ((u "namespace"), (u "##other"))] None [])])]);
   (El (u "xsd:element") [((u "name"), (u "capital-spend"))] None [(El (u "xsd:complexType") [] None [(El (u "xsd:sequence") [] None [(El (u "xsd:any") [((u "namespace"), (u "##other")); ((u "processContents"), (u "lax")); ((u "minOccurs"), (u "0")); ((u "maxOccurs"), (u "unbounded"))] None [])]);
   (El (u "xsd:attribute") [((u "name"), (u "percentage")); ((u "use"), (u "required")); ((u "type"), (u "xsd:decimal"))] None []);
   (El (u "xsd:anyAttribute") [((u "processContents"), (u "lax")); ((u "namespace"), (u "##other"))] None [])])]);
   (El (u "xsd:element") [((u "name"), (u "transaction"))] None [(El (u "xsd:complexType") [] None [(El (u "xsd:sequence") [] None [(El (u "xsd:element") [((u "name"), (u "transaction-type")); ((u "minOccurs"), (u "1")); ((u "maxOccurs"), (u "1"))] None [(El (u "xsd:complexType") [] None [(El (u "xsd:sequence") [] None [(El (u "xsd:any") [((u "namespace"), (u "##other")); ((u "processContents"), (u "lax")); ((u "minOccurs"), (u "0")); ((u "maxOccurs"), (u "unbounded"))] None [])]);
   (El (u "xsd:attribute") [((u "name"), (u "code")); ((u "type"), (u "xsd:string")); ((u "use"), (u "required"))] None []);
   (El (u "xsd:anyAttribute") [((u "processContents"), (u "lax")); ((u "namespace"), (u "##other"))] None [])])]);
   (El (u "xsd:element") [((u "name"), (u "transaction-date")); ((u "minOccurs"), (u "1")); ((u "maxOccurs"), (u "1"))] None [(El (u "xsd:complexType") [] None [(El (u "xsd:sequence") [] None [(El (u "xsd:any") [((u "namespace"), (u "##other")); ((u "processContents"), (u "lax")); ((u "minOccurs"), (u "0")); ((u "maxOccurs"), (u "unbounded"))] None [])]);
   (El (u "xsd:attribute") [((u "name"), (u "iso-date")); ((u "type"), (u "xsd:date")); ((u "use"), (u "required"))] None []);
   (El (u "xsd:anyAttribute") [((u "processContents"), (u "lax")); ((u "namespace"), (u "##other"))] None [])])]);
   (El (u "xsd:element") [((u "name"), (u "value")); ((u "type"), (u "currencyType")); ((u "minOccurs"), (u "1")); ((u "maxOccurs"), (u "1"))] None []);
   (El (u "xsd:element") [((u "name"), (u "description")); ((u "type"), (u "textRequiredType")); ((u "minOccurs"), (u "0")); ((u "maxOccurs"), (u "1"))] None []);
   (El (u "xsd:element") [((u "name"), (u "provider-org")); ((u "minOccurs"), (u "0")); ((u "maxOccurs"), (u "1"))] None [(El (u "xsd:complexType") [] None [(El (u "xsd:sequence") [] None [(El (u "xsd:element") [((u "ref"), (u "narrative")); ((u "minOccurs"), (u "0")); ((u "maxOccurs"), (u "unbounded"))] None []);
   (El (u "xsd:any") [((u "namespace"), (u "##other")); ((u "processContents"), (u "lax")); ((u "minOccurs"), (u "0")); ((u "maxOccurs"), (u "unbounded"))] None [])]);
   (El (u "xsd:attribute") [((u "name"), (u "ref")); ((u "use"), (u "optional")); ((u "type"), (u "xsd:string"))] None []);
   (El (u "xsd:attribute") [((u "name"), (u "provider-activity-id")); ((u "type"), (u "xsd:string")); ((u "use"), (u "optional"))] None []);
   (El (u "xsd:attribute") [((u "name"), (u "type")); ((u "use"), (u "optional")); ((u "type"), (u "xsd:string"))] None []);
   (El (u "xsd:anyAttribute") [((u "processContents"), (u "lax")); ((u "namespace"), (u "##other"))] None [])])]);
   (El (u "xsd:element") [((u "name"), (u "receiver-org")); ((u "minOccurs"), (u "0")); ((u "maxOccurs"), (u "1"))] None [(El (u "xsd:complexType") [] None [(El (u "xsd:sequence") [] None [(El (u "xsd:element") [((u "ref"), (u "narrative")); ((u "minOccurs"), (u "0")); ((u "maxOccurs"), (u "unbounded"))] None []);
   (El (u "xsd:any") [((u "namespace"), (u "##other")); ((u "processContents"), (u "lax")); ((u "minOccurs"), (u "0")); ((u "maxOccurs"), (u "unbounded"))] None [])]);
   (El (u "xsd:attribute") [((u "name"), (u "ref")); ((u "use"), (u "optional")); ((u "type"), (u "xsd:string"))] None []);
   (El (u "xsd:attribute") [((u "name"), (u "receiver-activity-id")); ((u "type"), (u "xsd:string")); ((u "use"), (u "optional"))] None []);
   (El (u "xsd:attribute") [((u "name"), (u "type")); ((u "use"), (u "optional")); ((u "type"), (u "xsd:string"))] None []);
   (El (u "xsd:anyAttribute") [((u "processContents"), (u "lax")); ((u "namespace"), (u "##other"))] None [])])]);
   (El (u "xsd:element") [((u "name"), (u "disbursement-channel")); ((u "minOccurs"), (u "0")); ((u "maxOccurs"), (u "1"))] None [(El (u "xsd:complexType") [] None [(El (u "xsd:sequence") [] None [(El (u "xsd:any") [((u "namespace"), (u "##other")); ((u "processContents"), (u "lax")); ((u "minOccurs"), (u "0")); ((u "maxOccurs"), (u "unbounded"))] None [])]);
   (El (u "xsd:attribute") [((u "name"), (u "code")); ((u "type"), (u "xsd:string")); ((u "use"), (u "required"))] None []);
   (El (u "xsd:anyAttribute") [((u "processContents"), (u "lax")); ((u "namespace"), (u "##other"))] None [])])]);
   (El (u "xsd:element") [((u "name"), (u "sector")); ((u "minOccurs"), (u "0")); ((u "maxOccurs"), (u "unbounded"))] None [(El (u "xsd:complexType") [] None [(El (u "xsd:sequence") [] None [(El (u "xsd:element") [((u "ref"), (u "narrative")); ((u "minOccurs"), (u "0")); ((u "maxOccurs"), (u "unbounded"))] None []);
   (El (u "xsd:any") [((u "namespace"), (u "##other")); ((u "processContents"), (u "lax")); ((u "minOccurs"), (u "0")); ((u "maxOccurs"), (u "unbounded"))] None [])]);
   (El (u "xsd:attribute") [((u "name"), (u "vocabulary")); ((u "type"), (u "xsd:string")); ((u "use"), (u "optional"))] None []);
   (El (u "xsd:attribute") [((u "name"), (u "vocabulary-uri")); ((u "type"), (u "xsd:anyURI")); ((u "use"), (u "optional"))] None []);
   (El (u "xsd:attribute") [((u "name"), (u "code")); ((u "type"), (u "xsd:string")); ((u "use"), (u "required"))] None []);
   (El (u "xsd:anyAttribute") [((u "processContents"), (u "lax")); ((u "namespace"), (u "##other"))] None [])])]);
   (El (u "xsd:element") [((u "name"), (u "recipient-country")); ((u "minOccurs"), (u "0")); ((u "maxOccurs"), (u "1"))] None [(El (u "xsd:complexType") [] None [(El (u "xsd:sequence") [] None [(El (u "xsd:element") [((u "ref"), (u "narrative")); ((u "minOccurs"), (u "0")); ((u "maxOccurs"), (u "unbounded"))] None []);
   (El (u "xsd:any") [((u "namespace"), (u "##other")); ((u "processContents"), (u "lax")); ((u "minOccurs"), (u "0")); ((u "maxOccurs"), (u "unbounded"))] None [])]);
   (El (u "xsd:attribute") [((u "name"), (u "code")); ((u "type"), (u "xsd:string")); ((u "use"), (u "required"))] None []);
   (El (u "xsd:anyAttribute") [((u "processContents"), (u "lax")); ((u "namespace"), (u "##other"))] None [])])]);
   (El (u "xsd:element") [((u "name"), (u "recipient-region")); ((u "minOccurs"), (u "0")); ((u "maxOccurs"), (u "1"))] None [(El (u "xsd:complexType") [] None [(El (u "xsd:sequence") [] None [(El (u "xsd:element") [((u "ref"), (u "narrative")); ((u "minOccurs"), (u "0")); ((u "maxOccurs"), (u "unbounded"))] None []);
   (El (u "xsd:any") [((u "namespace"), (u "##other")); ((u "processContents"), (u "lax")); ((u "minOccurs"), (u "0")); ((u "maxOccurs"), (u "unbounded"))] None [])]);
   (El (u "xsd:attribute") [((u "name"), (u "code")); ((u "type"), (u "xsd:string")); ((u "use"), (u "required"))] None []);
   (El (u "xsd:attribute") [((u "name"), (u "vocabulary")); ((u "type"), (u "xsd:string")); ((u "use"), (u "optional"))] None []);
   (El (u "xsd:attribute") [((u "name"), (u "vocabulary-uri")); ((u "type"), (u "xsd:anyURI")); ((u "use"), (u "optional"))] None []);
   (El (u "xsd:anyAttribute") [((u "processContents"), (u "lax")); ((u "namespace"), (u "##other"))] None [])])]);
   (El (u "xsd:element") [((u "name"), (u "flow-type")); ((u "minOccurs"), (u "0")); ((u "maxOccurs"), (u "1"))] None [(El (u "xsd:complexType") [] None [(El (u "xsd:sequence") [] None [(El (u "xsd:any") [((u "namespace"), (u "##other")); ((u "processContents"), (u "lax")); ((u "minOccurs"), (u "0")); ((u "maxOccurs"), (u "unbounded"))] None [])]);
   (El (u "xsd:attribute") [((u "name"), (u "code")); ((u "type"), (u "xsd:string")); ((u "use"), (u "required"))] None []);
   (El (u "xsd:anyAttribute") [((u "processContents"), (u "lax")); ((u "namespace"), (u "##other"))] None [])])]);
   (El (u "xsd:element") [((u "name"), (u "finance-type")); ((u "minOccurs"), (u "0")); ((u "maxOccurs"), (u "1"))] None [(El (u "xsd:complexType") [] None [(El (u "xsd:sequence") [] None [(El (u "xsd:any") [((u "namespace"), (u "##other")); ((u "processContents"), (u "lax")); ((u "minOccurs"), (u "0")); ((u "maxOccurs"), (u "unbounded"))] None [])]);
   (El (u "xsd:attribute") [((u "name"), (u "code")); ((u "type"), (u "xsd:string")); ((u "use"), (u "required"))] None []);
   (El (u "xsd:anyAttribute") [((u "processContents"), (u "lax")); ((u "namespace"), (u "##other"))] None [])])]);
   (El (u "xsd:element") [((u "name"), (u "aid-type")); ((u "type"), (u "aidTypeBase")); ((u "minOccurs"), (u "0")); ((u "maxOccurs"), (u "unbounded"))] None []);
   (El (u "xsd:element") [((u "name"), (u "tied-status")); ((u "minOccurs"), (u "0")); ((u "maxOccurs"), (u "1"))] None [(El (u "xsd:complexType") [] None [(El (u "xsd:sequence") [] None [(El (u "xsd:any") [((u "namespace"), (u "##other")); ((u "processContents"), (u "lax")); ((u "minOccurs"), (u "0")); ((u "maxOccurs"), (u "unbounded"))] None [])]);
   (El (u "xsd:attribute") [((u "name"), (u "code")); ((u "type"), (u "xsd:string")); ((u "use"), (u "required"))] None []);
   (El (u "xsd:anyAttribute") [((u "processContents"), (u "lax")); ((u "namespace"), (u "##other"))] None [])])]);
   (El (u "xsd:any") [((u "namespace"), (u "##other")); ((u "processContents"), (u "lax")); ((u "minOccurs"), (u "0")); ((u "maxOccurs"), (u "unbounded"))] None [])]);
   (El (u "xsd:attribute") [((u "name"), (u "ref")); ((u "type"), (u "xsd:string")); ((u "use"), (u "optional"))] None []);
   (El (u "xsd:attribute") [((u "name"), (u "humanitarian")); ((u "type"), (u "xsd:boolean")); ((u "use"), (u "optional"))] None []);
   (El (u "xsd:anyAttribute") [((u "processContents"), (u "lax")); ((u "namespace"), (u "##other"))] None [])])]);
   (El (u "xsd:element") [((u "name"), (u "location"))] None [(El (u "xsd:complexType") [] None [(El (u "xsd:sequence") [] None [(El (u "xsd:element") [((u "name"), (u "location-reach")); ((u "minOccurs"), (u "0")); ((u "maxOccurs"), (u "1"))] None [(El (u "xsd:complexType") [] None [(El (u "xsd:sequence") [] None [(El (u "xsd:any") [((u "namespace"), (u "##other")); ((u "processContents"), (u "lax")); ((u "minOccurs"), (u "0")); ((u "maxOccurs"), (u "unbounded"))] None [])]);
   (El (u "xsd:attribute") [((u "name"), (u "code")); ((u "type"), (u "xsd:string")); ((u "use"), (u "required"))] None []);
   (El (u "xsd:anyAttribute") [((u "processContents"), (u "lax")); ((u "namespace"), (u "##other"))] None [])])]);
   (El (u "xsd:element") [((u "name"), (u "location-id")); ((u "minOccurs"), (u "0")); ((u "maxOccurs"), (u "unbounded"))] None [(El (u "xsd:complexType") [] None [(El (u "xsd:sequence") [] None [(El (u "xsd:any") [((u "namespace"), (u "##other")); ((u "processContents"), (u "lax")); ((u "minOccurs"), (u "0")); ((u "maxOccurs"), (u "unbounded"))] None [])]);
   (El (u "xsd:attribute") [((u "name"), (u "code")); ((u "type"), (u "xsd:string")); ((u "use"), (u "required"))] None []);
   (El (u "xsd:attribute") [((u "name"), (u "vocabulary")); ((u "type"), (u "xsd:string")); ((u "use"), (u "required"))] None []);
   (El (u "xsd:anyAttribute") [((u "processContents"), (u "lax")); ((u "namespace"), (u "##other"))] None [])])]);
   (El (u "xsd:element") [((u "name"), (u "name")); ((u "type"), (u "textRequiredType")); ((u "minOccurs"), (u "0")); ((u "maxOccurs"), (u "1"))] None []);
   (El (u "xsd:element") [((u "name"), (u "description")); ((u "type"), (u "textRequiredType")); ((u "minOccurs"), (u "0")); ((u "maxOccurs"), (u "1"))] None []);
   (El (u "xsd:element") [((u "name"), (u "activity-description")); ((u "type"), (u "textRequiredType")); ((u "minOccurs"), (u "0")); ((u "maxOccurs"), (u "1"))] None []);
   (El (u "xsd:element") [((u "name"), (u "administrative")); ((u "minOccurs"), (u "0")); ((u "maxOccurs"), (u "unbounded"))] None [(El (u "xsd:complexType") [] None [(El (u "xsd:sequence") [] None [(El (u "xsd:any") [((u "namespace"), (u "##other")); ((u "processContents"), (u "lax")); ((u "minOccurs"), (u "0")); ((u "maxOccurs"), (u "unbounded"))] None [])]);
   (El (u "xsd:attribute") [((u "name"), (u "code")); ((u "type"), (u "xsd:string")); ((u "use"), (u "required"))] None []);
   (El (u "xsd:attribute") [((u "name"), (u "vocabulary")); ((u "type"), (u "xsd:string")); ((u "use"), (u "required"))] None []);
   (El (u "xsd:attribute") [((u "name"), (u "level")); ((u "type"), (u "xsd:nonNegativeInteger")); ((u "use"), (u "optional"))] None []);
   (El (u "xsd:anyAttribute") [((u "processContents"), (u "lax")); ((u "namespace"), (u "##other"))] None [])])]);
   (El (u "xsd:element") [((u "name"), (u "point")); ((u "minOccurs"), (u "0")); ((u "maxOccurs"), (u "1"))] None [(El (u "xsd:complexType") [] None [(El (u "xsd:sequence") [] None [(El (u "xsd:element") [((u "name"), (u "pos")); ((u "type"), (u "xsd:string")); ((u "minOccurs"), (u "1")); ((u "maxOccurs"), (u "1"))] None []);
   (El (u "xsd:any") [((u "namespace"), (u "##other")); ((u "processContents"), (u "lax")); ((u "minOccurs"), (u "0")); ((u "maxOccurs"), (u "unbounded"))] None [])]);
   (El (u "xsd:attribute") [((u "name"), (u "srsName")); ((u "type"), (u "xsd:string")); ((u "use"), (u "required"))] None []);
   (El (u "xsd:anyAttribute") [((u "processContents"), (u "lax")); ((u "namespace"), (u "##other"))] None [])])]);
   (El (u "xsd:element") [((u "name"), (u "exactness")); ((u "minOccurs"), (u "0")); ((u "maxOccurs"), (u "1"))] None [(El (u "xsd:complexType") [] None [(El (u "xsd:sequence") [] None [(El (u "xsd:any") [((u "namespace"), (u "##other")); ((u "processContents"), (u "lax")); ((u "minOccurs"), (u "0")); ((u "maxOccurs"), (u "unbounded"))] None [])]);
   (El (u "xsd:attribute") [((u "name"), (u "code")); ((u "type"), (u "xsd:string")); ((u "use"), (u "required"))] None []);
   (El (u "xsd:anyAttribute") [((u "processContents"), (u "lax")); ((u "namespace"), (u "##other"))] None [])])]);
   (El (u "xsd:element") [((u "name"), (u "location-class")); ((u "minOccurs"), (u "0")); ((u "maxOccurs"), (u "1"))] None [(El (u "xsd:complexType") [] None [(El (u "xsd:sequence") [] None [(El (u "xsd:any") [((u "namespace"), (u "##other")); ((u "processContents"), (u "lax")); ((u "minOccurs"), (u "0")); ((u "maxOccurs"), (u "unbounded"))] None [])]);
   (El (u "xsd:attribute") [((u "name"), (u "code")); ((u "type"), (u "xsd:string")); ((u "use"), (u "required"))] None []);
   (El (u "xsd:anyAttribute") [((u "processContents"), (u "lax")); ((u "namespace"), (u "##other"))] None [])])]);
   (El (u "xsd:element") [((u "name"), (u "feature-designation")); ((u "minOccurs"), (u "0")); ((u "maxOccurs"), (u "1"))] None [(El (u "xsd:complexType") [] None [(El (u "xsd:sequence") [] None [(El (u "xsd:any") [((u "namespace"), (u "##other")); ((u "processContents"), (u "lax")); ((u "minOccurs"), (u "0")); ((u "maxOccurs"), (u "unbounded"))] None [])]);
   (El (u "xsd:attribute") [((u "name"), (u "code")); ((u "type"), (u "xsd:string")); ((u "use"), (u "required"))] None []);
   (El (u "xsd:anyAttribute") [((u "processContents"), (u "lax")); ((u "namespace"), (u "##other"))] None [])])]);
   (El (u "xsd:any") [((u "namespace"), (u "##other")); ((u "processContents"), (u "lax")); ((u "minOccurs"), (u "0")); ((u "maxOccurs"), (u "unbounded"))] None [])]);
   (El (u "xsd:attribute") [((u "name"), (u "ref")); ((u "use"), (u "optional")); ((u "type"), (u "xsd:string"))] None []);
   (El (u "xsd:anyAttribute") [((u "processContents"), (u "lax")); ((u "namespace"), (u "##other"))] None [])])]);
   (El (u "xsd:element") [((u "name"), (u "tag"))] None [(El (u "xsd:complexType") [] None [(El (u "xsd:sequence") [] None [(El (u "xsd:element") [((u "ref"), (u "narrative")); ((u "minOccurs"), (u "0")); ((u "maxOccurs"), (u "unbounded"))] None []);
   (El (u "xsd:any") [((u "namespace"), (u "##other")); ((u "processContents"), (u "lax")); ((u "minOccurs"), (u "0")); ((u "maxOccurs"), (u "unbounded"))] None [])]);
   (El (u "xsd:attribute") [((u "name"), (u "code")); ((u "use"), (u "required")); ((u "type"), (u "xsd:string"))] None []);
   (El (u "xsd:attribute") [((u "name"), (u "vocabulary")); ((u "use"), (u "required")); ((u "type"), (u "xsd:string"))] None []);
   (El (u "xsd:attribute") [((u "name"), (u "vocabulary-uri")); ((u "use"), (u "optional")); ((u "type"), (u "xsd:anyURI"))] None []);
   (El (u "xsd:anyAttribute") [((u "processContents"), (u "lax")); ((u "namespace"), (u "##other"))] None [])])]);
   (El (u "xsd:element") [((u "name"), (u "country-budget-items"))] None [(El (u "xsd:complexType") [] None [(El (u "xsd:sequence") [] None [(El (u "xsd:element") [((u "name"), (u "budget-item")); ((u "minOccurs"), (u "1")); ((u "maxOccurs"), (u "unbounded"))] None [(El (u "xsd:complexType") [] None [(El (u "xsd:sequence") [] None [(El (u "xsd:element") [((u "name"), (u "description")); ((u "type"), (u "textRequiredType")); ((u "minOccurs"), (u "0")); ((u "maxOccurs"), (u "1"))] None []);
   (El (u "xsd:any") [((u "namespace"), (u "##other")); ((u "processContents"), (u "lax")); ((u "minOccurs"), (u "0")); ((u "maxOccurs"), (u "unbounded"))] None [])]);
   (El (u "xsd:attribute") [((u "name"), (u "code")); ((u "type"), (u "xsd:string")); ((u "use"), (u "required"))] None []);
   (El (u "xsd:attribute") [((u "name"), (u "percentage")); ((u "use"), (u "optional")); ((u "type"), (u "xsd:decimal"))] None []);
   (El (u "xsd:anyAttribute") [((u "processContents"), (u "lax")); ((u "namespace"), (u "##other"))] None [])])]);
   (El (u "xsd:any") [((u "namespace"), (u "##other")); ((u "processContents"), (u "lax")); ((u "minOccurs"), (u "0")); ((u "maxOccurs"), (u "unbounded"))] None [])]);
   (El (u "xsd:attribute") [((u "name"), (u "vocabulary")); ((u "type"), (u "xsd:string")); ((u "use"), (u "required"))] None []);
   (El (u "xsd:anyAttribute") [((u "processContents"), (u "lax")); ((u "namespace"), (u "##other"))] None [])])]);
   (El (u "xsd:element") [((u "name"), (u "related-activity"))] None [(El (u "xsd:complexType") [] None [(El (u "xsd:sequence") [] None [(El (u "xsd:any") [((u "namespace"), (u "##other")); ((u "processContents"), (u "lax")); ((u "minOccurs"), (u "0")); ((u "maxOccurs"), (u "unbounded"))] None [])]);
   (El (u "xsd:attribute") [((u "name"), (u "ref")); ((u "use"), (u "required")); ((u "type"), (u "xsd:string"))] None []);
   (El (u "xsd:attribute") [((u "name"), (u "type")); ((u "use"), (u "required")); ((u "type"), (u "xsd:string"))] None [])])]);
   (El (u "xsd:element") [((u "name"), (u "legacy-data"))] None [(El (u "xsd:complexType") [] None [(El (u "xsd:sequence") [] None [(El (u "xsd:any") [((u "namespace"), (u "##other")); ((u "processContents"), (u "lax")); ((u "minOccurs"), (u "0")); ((u "maxOccurs"), (u "unbounded"))] None [])]);
   (El (u "xsd:attribute") [((u "name"), (u "name")); ((u "type"), (u "xsd:string")); ((u "use"), (u "required"))] None []);
   (El (u "xsd:attribute") [((u "name"), (u "value")); ((u "type"), (u "xsd:string")); ((u "use"), (u "required"))] None []);
   (El (u "xsd:attribute") [((u "name"), (u "iati-equivalent")); ((u "type"), (u "xsd:NMTOKEN")); ((u "use"), (u "optional"))] None [])])]);
   (El (u "xsd:element") [((u "name"), (u "result"))] None [(El (u "xsd:complexType") [] None [(El (u "xsd:sequence") [] None [(El (u "xsd:element") [((u "ref"), (u "title")); ((u "minOccurs"), (u "1")); ((u "maxOccurs"), (u "1"))] None []);
   (El (u "xsd:element") [((u "ref"), (u "description")); ((u "minOccurs"), (u "0")); ((u "maxOccurs"), (u "1"))] None []);
   (El (u "xsd:element") [((u "name"), (u "document-link")); ((u "minOccurs"), (u "0")); ((u "maxOccurs"), (u "unbounded")); ((u "type"), (u "documentLinkResultBase"))] None []);
   (El (u "xsd:element") [((u "name"), (u "reference")); ((u "minOccurs"), (u "0")); ((u "maxOccurs"), (u "unbounded"))] None [(El (u "xsd:complexType") [] None [(El (u "xsd:sequence") [] None [(El (u "xsd:any") [((u "namespace"), (u "##other")); ((u "processContents"), (u "lax")); ((u "minOccurs"), (u "0")); ((u "maxOccurs"), (u "unbounded"))] None [])]);
   (El (u "xsd:attribute") [((u "name"), (u "code")); ((u "use"), (u "required")); ((u "type"), (u "xsd:string"))] None []);
   (El (u "xsd:attribute") [((u "name"), (u "vocabulary")); ((u "use"), (u "required")); ((u "type"), (u "xsd:string"))] None []);
   (El (u "xsd:attribute") [((u "name"), (u "vocabulary-uri")); ((u "use"), (u "optional")); ((u "type"), (u "xsd:anyURI"))] None []);
   (El (u "xsd:anyAttribute") [((u "processContents"), (u "lax")); ((u "namespace"), (u "##other"))] None [])])]);
   (El (u "xsd:element") [((u "name"), (u "indicator")); ((u "minOccurs"), (u "1")); ((u "maxOccurs"), (u "unbounded"))] None [(El (u "xsd:complexType") [] None [(El (u "xsd:sequence") [] None [(El (u "xsd:element") [((u "ref"), (u "title")); ((u "minOccurs"), (u "1")); ((u "maxOccurs"), (u "1"))] None []);
   (El (u "xsd:element") [((u "ref"), (u "description")); ((u "minOccurs"), (u "0")); ((u "maxOccurs"), (u "1"))] None []);
   (El (u "xsd:element") [((u "name"), (u "document-link")); ((u "minOccurs"), (u "0")); ((u "maxOccurs"), (u "unbounded")); ((u "type"), (u "documentLinkResultBase"))] None []);
   (El (u "xsd:element") [((u "name"), (u "reference")); ((u "minOccurs"), (u "0")); ((u "maxOccurs"), (u "unbounded"))] None [(El (u "xsd:complexType") [] None [(El (u "xsd:sequence") [] None [(El (u "xsd:any") [((u "namespace"), (u "##other")); ((u "processContents"), (u "lax")); ((u "minOccurs"), (u "0")); ((u "maxOccurs"), (u "unbounded"))] None [])]);
   (El (u "xsd:attribute") [((u "name"), (u "vocabulary")); ((u "use"), (u "required")); ((u "type"), (u "xsd:string"))] None []);
   (El (u "xsd:attribute") [((u "name"), (u "code")); ((u "use"), (u "required")); ((u "type"), (u "xsd:string"))] None []);
   (El (u "xsd:attribute") [((u "name"), (u "indicator-uri")); ((u "use"), (u "optional")); ((u "type"), (u "xsd:anyURI"))] None []);
   (El (u "xsd:anyAttribute") [((u "processContents"), (u "lax")); ((u "namespace"), (u "##other"))] None [])])]);
   (El (u "xsd:element") [((u "name"), (u "baseline")); ((u "minOccurs"), (u "0")); ((u "maxOccurs"), (u "unbounded"))] None [(El (u "xsd:complexType") [] None [(El (u "xsd:sequence") [] None [(El (u "xsd:element") [((u "name"), (u "location")); ((u "type"), (u "resultLocationBase")); ((u "minOccurs"), (u "0")); ((u "maxOccurs"), (u "unbounded"))] None []);
   (El (u "xsd:element") [((u "ref"), (u "dimension")); ((u "minOccurs"), (u "0")); ((u "maxOccurs"), (u "unbounded"))] None []);
   (El (u "xsd:element") [((u "name"), (u "document-link")); ((u "minOccurs"), (u "0")); ((u "maxOccurs"), (u "unbounded")); ((u "type"), (u "documentLinkResultBase"))] None []);
   (El (u "xsd:element") [((u "ref"), (u "comment")); ((u "minOccurs"), (u "0")); ((u "maxOccurs"), (u "1"))] None []);
   (El (u "xsd:any") [((u "namespace"), (u "##other")); ((u "processContents"), (u "lax")); ((u "minOccurs"), (u "0")); ((u "maxOccurs"), (u "unbounded"))] None [])]);
   (El (u "xsd:attribute") [((u "name"), (u "iso-date")); ((u "type"), (u "xsd:date")); ((u "use"), (u "optional"))] None []);
   (El (u "xsd:attribute") [((u "name"), (u "year")); ((u "type"), (u "xsd:positiveInteger")); ((u "use"), (u "required"))] None []);
   (El (u "xsd:attribute") [((u "name"), (u "value")); ((u "type"), (u "xsd:string")); ((u "use"), (u "optional"))] None []);
   (El (u "xsd:anyAttribute") [((u "processContents"), (u "lax")); ((u "namespace"), (u "##other"))] None [])])]);
   (El (u "xsd:element") [((u "name"), (u "period")); ((u "minOccurs"), (u "0")); ((u "maxOccurs"), (u "unbounded"))] None [(El (u "xsd:complexType") [] None [(El (u "xsd:sequence") [] None [(El (u "xsd:element") [((u "name"), (u "period-start")); ((u "minOccurs"), (u "1")); ((u "maxOccurs"), (u "1"))] None [(El (u "xsd:complexType") [] None [(El (u "xsd:sequence") [] None [(El (u "xsd:any") [((u "processContents"), (u "lax")); ((u "namespace"), (u "##other")); ((u "minOccurs"), (u "0")); ((u "maxOccurs"), (u "unbounded"))] None [])]);
   (El (u "xsd:attribute") [((u "name"), (u "iso-date")); ((u "type"), (u "xsd:date")); ((u "use"), (u "required"))] None []);
   (El (u "xsd:anyAttribute") [((u "processContents"), (u "lax")); ((u "namespace"), (u "##other"))] None [])])]);
   (El (u "xsd:element") [((u "name"), (u "period-end")); ((u "minOccurs"), (u "1")); ((u "maxOccurs"), (u "1"))] None [(El (u "xsd:complexType") [] None [(El (u "xsd:sequence") [] None [(El (u "xsd:any") [((u "processContents"), (u "lax")); ((u "namespace"), (u "##other")); ((u "minOccurs"), (u "0")); ((u "maxOccurs"), (u "unbounded"))] None [])]);
   (El (u "xsd:attribute") [((u "name"), (u "iso-date")); ((u "type"), (u "xsd:date")); ((u "use"), (u "required"))] None []);
   (El (u "xsd:anyAttribute") [((u "processContents"), (u "lax")); ((u "namespace"), (u "##other"))] None [])])]);
   (El (u "xsd:element") [((u "name"), (u "target")); ((u "minOccurs"), (u "0")); ((u "maxOccurs"), (u "unbounded"))] None [(El (u "xsd:complexType") [] None [(El (u "xsd:sequence") [] None [(El (u "xsd:element") [((u "name"), (u "location")); ((u "type"), (u "resultLocationBase")); ((u "minOccurs"), (u "0")); ((u "maxOccurs"), (u "unbounded"))] None []);
   (El (u "xsd:element") [((u "ref"), (u "dimension")); ((u "minOccurs"), (u "0")); ((u "maxOccurs"), (u "unbounded"))] None []);
   (El (u "xsd:element") [((u "ref"), (u "comment")); ((u "minOccurs"), (u "0")); ((u "maxOccurs"), (u "1"))] None []);
   (El (u "xsd:element") [((u "name"), (u "document-link")); ((u "minOccurs"), (u "0")); ((u "maxOccurs"), (u "unbounded")); ((u "type"), (u "documentLinkResultBase"))] None []);
   (El (u "xsd:any") [((u "namespace"), (u "##other")); ((u "processContents"), (u "lax")); ((u "minOccurs"), (u "0")); ((u "maxOccurs"), (u "unbounded"))] None [])]);
   (El (u "xsd:attribute") [((u "name"), (u "value")); ((u "type"), (u "xsd:string")); ((u "use"), (u "optional"))] None [])])]);
   (El (u "xsd:element") [((u "name"), (u "actual")); ((u "minOccurs"), (u "0")); ((u "maxOccurs"), (u "unbounded"))] None [(El (u "xsd:complexType") [] None [(El (u "xsd:sequence") [] None [(El (u "xsd:element") [((u "name"), (u "location")); ((u "type"), (u "resultLocationBase")); ((u "minOccurs"), (u "0")); ((u "maxOccurs"), (u "unbounded"))] None []);
   (El (u "xsd:element") [((u "ref"), (u "dimension")); ((u "minOccurs"), (u "0")); ((u "maxOccurs"), (u "unbounded"))] None []);
   (El (u "xsd:element") [((u "ref"), (u "comment")); ((u "minOccurs"), (u "0")); ((u "maxOccurs"), (u "1"))] None []);
   (El (u "xsd:element") [((u "name"), (u "document-link")); ((u "minOccurs"), (u "0")); ((u "maxOccurs"), (u "unbounded")); ((u "type"), (u "documentLinkResultBase"))] None []);
   (El (u "xsd:any") [((u "namespace"), (u "##other")); ((u "processContents"), (u "lax")); ((u "minOccurs"), (u "0")); ((u "maxOccurs"), (u "unbounded"))] None [])]);
   (El (u "xsd:attribute") [((u "name"), (u "value")); ((u "type"), (u "xsd:string")); ((u "use"), (u "optional"))] None [])])]);
   (El (u "xsd:any") [((u "namespace"), (u "##other")); ((u "processContents"), (u "lax")); ((u "minOccurs"), (u "0")); ((u "maxOccurs"), (u "unbounded"))] None [])]);
   (El (u "xsd:anyAttribute") [((u "processContents"), (u "lax")); ((u "namespace"), (u "##other"))] None [])])]);
   (El (u "xsd:any") [((u "namespace"), (u "##other")); ((u "processContents"), (u "lax")); ((u "minOccurs"), (u "0")); ((u "maxOccurs"), (u "unbounded"))] None [])]);
   (El (u "xsd:attribute") [((u "name"), (u "measure")); ((u "type"), (u "xsd:string")); ((u "use"), (u "required"))] None []);
   (El (u "xsd:attribute") [((u "name"), (u "ascending")); ((u "type"), (u "xsd:boolean")); ((u "use"), (u "optional"))] None []);
   (El (u "xsd:attribute") [((u "name"), (u "aggregation-status")); ((u "type"), (u "xsd:boolean")); ((u "use"), (u "optional"))] None []);
   (El (u "xsd:anyAttribute") [((u "processContents"), (u "lax")); ((u "namespace"), (u "##other"))] None [])])]);
   (El (u "xsd:any") [((u "namespace"), (u "##other")); ((u "processContents"), (u "lax")); ((u "minOccurs"), (u "0")); ((u "maxOccurs"), (u "unbounded"))] None [])]);
   (El (u "xsd:attribute") [((u "name"), (u "type")); ((u "use"), (u "required")); ((u "type"), (u "xsd:string"))] None []);
   (El (u "xsd:attribute") [((u "name"), (u "aggregation-status")); ((u "type"), (u "xsd:boolean")); ((u "use"), (u "optional"))] None []);
   (El (u "xsd:anyAttribute") [((u "processContents"), (u "lax")); ((u "namespace"), (u "##other"))] None [])])]);
   (El (u "xsd:element") [((u "name"), (u "conditions"))] None [(El (u "xsd:complexType") [] None [(El (u "xsd:sequence") [] None [(El (u "xsd:element") [((u "name"), (u "condition")); ((u "minOccurs"), (u "0")); ((u "maxOccurs"), (u "unbounded"))] None [(El (u "xsd:complexType") [] None [(El (u "xsd:sequence") [] None [(El (u "xsd:element") [((u "ref"), (u "narrative")); ((u "minOccurs"), (u "1")); ((u "maxOccurs"), (u "unbounded"))] None []);
   (El (u "xsd:any") [((u "namespace"), (u "##other")); ((u "processContents"), (u "lax")); ((u "minOccurs"), (u "0")); ((u "maxOccurs"), (u "unbounded"))] None [])]);
   (El (u "xsd:attribute") [((u "name"), (u "type")); ((u "use"), (u "required")); ((u "type"), (u "xsd:string"))] None [])])]);
   (El (u "xsd:any") [((u "namespace"), (u "##other")); ((u "processContents"), (u "lax")); ((u "minOccurs"), (u "0")); ((u "maxOccurs"), (u "unbounded"))] None [])]);
   (El (u "xsd:attribute") [((u "name"), (u "attached")); ((u "type"), (u "xsd:boolean")); ((u "use"), (u "required"))] None []);
   (El (u "xsd:anyAttribute") [((u "processContents"), (u "lax")); ((u "namespace"), (u "##other"))] None [])])]);
   (El (u "xsd:element") [((u "name"), (u "budget"))] None [(El (u "xsd:complexType") [] None [(El (u "xsd:sequence") [] None [(El (u "xsd:element") [((u "name"), (u "period-start")); ((u "minOccurs"), (u "1")); ((u "maxOccurs"), (u "1"))] None [(El (u "xsd:complexType") [] None [(El (u "xsd:sequence") [] None [(El (u "xsd:any") [((u "processContents"), (u "lax")); ((u "namespace"), (u "##other")); ((u "minOccurs"), (u "0")); ((u "maxOccurs"), (u "unbounded"))] None [])]);
   (El (u "xsd:attribute") [((u "name"), (u "iso-date")); ((u "type"), (u "xsd:date")); ((u "use"), (u "required"))] None []);
   (El (u "xsd:anyAttribute") [((u "processContents"), (u "lax")); ((u "namespace"), (u "##other"))] None [])])]);
   (El (u "xsd:element") [((u "name"), (u "period-end")); ((u "minOccurs"), (u "1")); ((u "maxOccurs"), (u "1"))] None [(El (u "xsd:complexType") [] None [(El (u "xsd:sequence") [] None [(El (u "xsd:any") [((u "processContents"), (u "lax")); ((u "namespace"), (u "##other")); ((u "minOccurs"), (u "0")); ((u "maxOccurs"), (u "unbounded"))] None [])]);
   (El (u "xsd:attribute") [((u "name"), (u "iso-date")); ((u "type"), (u "xsd:date")); ((u "use"), (u "required"))] None []);
   (El (u "xsd:anyAttribute") [((u "processContents"), (u "lax")); ((u "namespace"), (u "##other"))] None [])])]);
   (El (u "xsd:element") [((u "name"), (u "value")); ((u "type"), (u "currencyType")); ((u "minOccurs"), (u "1")); ((u "maxOccurs"), (u "1"))] None []);
   (El (u "xsd:any") [((u "namespace"), (u "##other")); ((u "processContents"), (u "lax")); ((u "minOccurs"), (u "0")); ((u "maxOccurs"), (u "unbounded"))] None [])]);
   (El (u "xsd:attribute") [((u "name"), (u "type")); ((u "use"), (u "optional")); ((u "type"), (u "xsd:string"))] None []);
   (El (u "xsd:attribute") [((u "name"), (u "status")); ((u "use"), (u "optional")); ((u "type"), (u "xsd:string"))] None []);
   (El (u "xsd:anyAttribute") [((u "processContents"), (u "lax")); ((u "namespace"), (u "##other"))] None [])])]);
   (El (u "xsd:element") [((u "name"), (u "planned-disbursement"))] None [(El (u "xsd:complexType") [] None [(El (u "xsd:sequence") [] None [(El (u "xsd:element") [((u "name"), (u "period-start")); ((u "minOccurs"), (u "1")); ((u "maxOccurs"), (u "1"))] None [(El (u "xsd:complexType") [] None [(El (u "xsd:sequence") [] None [(El (u "xsd:any") [((u "processContents"), (u "lax")); ((u "namespace"), (u "##other")); ((u "minOccurs"), (u "0")); ((u "maxOccurs"), (u "unbounded"))] None [])]);
   (El (u "xsd:attribute") [((u "name"), (u "iso-date")); ((u "type"), (u "xsd:date")); ((u "use"), (u "required"))] None []);
   (El (u "xsd:anyAttribute") [((u "processContents"), (u "lax")); ((u "namespace"), (u "##other"))] None [])])]);
   (El (u "xsd:element") [((u "name"), (u "period-end")); ((u "minOccurs"), (u "0")); ((u "maxOccurs"), (u "1"))] None [(El (u "xsd:complexType") [] None [(El (u "xsd:sequence") [] None [(El (u "xsd:any") [((u "processContents"), (u "lax")); ((u "namespace"), (u "##other")); ((u "minOccurs"), (u "0")); ((u "maxOccurs"), (u "unbounded"))] None [])]);
   (El (u "xsd:attribute") [((u "name"), (u "iso-date")); ((u "type"), (u "xsd:date")); ((u "use"), (u "required"))] None []);
   (El (u "xsd:anyAttribute") [((u "processContents"), (u "lax")); ((u "namespace"), (u "##other"))] None [])])]);
   (El (u "xsd:element") [((u "name"), (u "value")); ((u "type"), (u "currencyType")); ((u "minOccurs"), (u "1")); ((u "maxOccurs"), (u "1"))] None []);
   (El (u "xsd:element") [((u "name"), (u "provider-org")); ((u "minOccurs"), (u "0")); ((u "maxOccurs"), (u "1"))] None [(El (u "xsd:complexType") [] None [(El (u "xsd:sequence") [] None [(El (u "xsd:element") [((u "ref"), (u "narrative")); ((u "minOccurs"), (u "0")); ((u "maxOccurs"), (u "unbounded"))] None []);
   (El (u "xsd:any") [((u "namespace"), (u "##other")); ((u "processContents"), (u "lax")); ((u "minOccurs"), (u "0")); ((u "maxOccurs"), (u "unbounded"))] None [])]);
   (El (u "xsd:attribute") [((u "name"), (u "ref")); ((u "use"), (u "optional")); ((u "type"), (u "xsd:string"))] None []);
   (El (u "xsd:attribute") [((u "name"), (u "provider-activity-id")); ((u "type"), (u "xsd:string")); ((u "use"), (u "optional"))] None []);
   (El (u "xsd:attribute") [((u "name"), (u "type")); ((u "use"), (u "optional")); ((u "type"), (u "xsd:string"))] None []);
   (El (u "xsd:anyAttribute") [((u "processContents"), (u "lax")); ((u "namespace"), (u "##other"))] None [])])]);
   (El (u "xsd:element") [((u "name"), (u "receiver-org")); ((u "minOccurs"), (u "0")); ((u "maxOccurs"), (u "1"))] None [(El (u "xsd:complexType") [] None [(El (u "xsd:sequence") [] None [(El (u "xsd:element") [((u "ref"), (u "narrative")); ((u "minOccurs"), (u "0")); ((u "maxOccurs"), (u "unbounded"))] None []);
   (El (u "xsd:any") [((u "namespace"), (u "##other")); ((u "processContents"), (u "lax")); ((u "minOccurs"), (u "0")); ((u "maxOccurs"), (u "unbounded"))] None [])]);
   (El (u "xsd:attribute") [((u "name"), (u "ref")); ((u "use"), (u "optional")); ((u "type"), (u "xsd:string"))] None []);
   (El (u "xsd:attribute") [((u "name"), (u "receiver-activity-id")); ((u "type"), (u "xsd:string")); ((u "use"), (u "optional"))] None []);
   (El (u "xsd:attribute") [((u "name"), (u "type")); ((u "use"), (u "optional")); ((u "type"), (u "xsd:string"))] None []);
   (El (u "xsd:anyAttribute") [((u "processContents"), (u "lax")); ((u "namespace"), (u "##other"))] None [])])]);
   (El (u "xsd:any") [((u "namespace"), (u "##other")); ((u "processContents"), (u "lax")); ((u "minOccurs"), (u "0")); ((u "maxOccurs"), (u "unbounded"))] None [])]);
   (El (u "xsd:attribute") [((u "name"), (u "type")); ((u "use"), (u "optional")); ((u "type"), (u "xsd:string"))] None []);
   (El (u "xsd:anyAttribute") [((u "processContents"), (u "lax")); ((u "namespace"), (u "##other"))] None [])])]);
   (El (u "xsd:element") [((u "name"), (u "crs-add"))] None [(El (u "xsd:complexType") [] None [(El (u "xsd:sequence") [] None [(El (u "xsd:element") [((u "name"), (u "other-flags")); ((u "minOccurs"), (u "0")); ((u "maxOccurs"), (u "unbounded"))] None [(El (u "xsd:complexType") [] None [(El (u "xsd:sequence") [] None [(El (u "xsd:any") [((u "namespace"), (u "##other")); ((u "processContents"), (u "lax")); ((u "minOccurs"), (u "0")); ((u "maxOccurs"), (u "unbounded"))] None [])]);
   (El (u "xsd:attribute") [((u "name"), (u "code")); ((u "use"), (u "required")); ((u "type"), (u "xsd:string"))] None []);
   (El (u "xsd:attribute") [((u "name"), (u "significance")); ((u "type"), (u "xsd:boolean")); ((u "use"), (u "required"))] None []);
   (El (u "xsd:anyAttribute") [((u "processContents"), (u "lax")); ((u "namespace"), (u "##other"))] None [])])]);
   (El (u "xsd:element") [((u "name"), (u "loan-terms")); ((u "minOccurs"), (u "0")); ((u "maxOccurs"), (u "1"))] None [(El (u "xsd:complexType") [] None [(El (u "xsd:sequence") [] None [(El (u "xsd:element") [((u "name"), (u "repayment-type")); ((u "minOccurs"), (u "0")); ((u "maxOccurs"), (u "1"))] None [(El (u "xsd:complexType") [] None [(El (u "xsd:sequence") [] None [(El (u "xsd:any") [((u "namespace"), (u "##other")); ((u "processContents"), (u "lax")); ((u "minOccurs"), (u "0")); ((u "maxOccurs"), (u "unbounded"))] None [])]);
   (El (u "xsd:attribute") [((u "name"), (u "code")); ((u "type"), (u "xsd:string")); ((u "use"), (u "required"))] None []);
   (El (u "xsd:anyAttribute") [((u "processContents"), (u "lax")); ((u "namespace"), (u "##other"))] None [])])]);
   (El (u "xsd:element") [((u "name"), (u "repayment-plan")); ((u "minOccurs"), (u "0")); ((u "maxOccurs"), (u "1"))] None [(El (u "xsd:complexType") [] None [(El (u "xsd:sequence") [] None [(El (u "xsd:any") [((u "namespace"), (u "##other")); ((u "processContents"), (u "lax")); ((u "minOccurs"), (u "0")); ((u "maxOccurs"), (u "unbounded"))] None [])]);
   (El (u "xsd:attribute") [((u "name"), (u "code")); ((u "type"), (u "xsd:string")); ((u "use"), (u "required"))] None []);
   (El (u "xsd:anyAttribute") [((u "processContents"), (u "lax")); ((u "namespace"), (u "##other"))] None [])])]);
   (El (u "xsd:element") [((u "name"), (u "commitment-date")); ((u "minOccurs"), (u "0")); ((u "maxOccurs"), (u "1"))] None [(El (u "xsd:complexType") [] None [(El (u "xsd:sequence") [] None [(El (u "xsd:any") [((u "processContents"), (u "lax")); ((u "namespace"), (u "##other")); ((u "minOccurs"), (u "0")); ((u "maxOccurs"), (u "unbounded"))] None [])]);
   (El (u "xsd:attribute") [((u "name"), (u "iso-date")); ((u "type"), (u "xsd:date")); ((u "use"), (u "required"))] None []);
   (El (u "xsd:anyAttribute") [((u "processContents"), (u "lax")); ((u "namespace"), (u "##other"))] None [])])]);
   (El (u "xsd:element") [((u "name"), (u "repayment-first-date")); ((u "minOccurs"), (u "0")); ((u "maxOccurs"), (u "1"))] None [(El (u "xsd:complexType") [] None [(El (u "xsd:sequence") [] None [(El (u "xsd:any") [((u "processContents"), (u "lax")); ((u "namespace"), (u "##other")); ((u "minOccurs"), (u "0")); ((u "maxOccurs"), (u "unbounded"))] None [])]);
   (El (u "xsd:attribute") [((u "name"), (u "iso-date")); ((u "type"), (u "xsd:date")); ((u "use"), (u "required"))] None []);
   (El (u "xsd:anyAttribute") [((u "processContents"), (u "lax")); ((u "namespace"), (u "##other"))] None [])])]);
   (El (u "xsd:element") [((u "name"), (u "repayment-final-date")); ((u "minOccurs"), (u "0")); ((u "maxOccurs"), (u "1"))] None [(El (u "xsd:complexType") [] None [(El (u "xsd:sequence") [] None [(El (u "xsd:any") [((u "processContents"), (u "lax")); ((u "namespace"), (u "##other")); ((u "minOccurs"), (u "0")); ((u "maxOccurs"), (u "unbounded"))] None [])]);
   (El (u "xsd:attribute") [((u "name"), (u "iso-date")); ((u "type"), (u "xsd:date")); ((u "use"), (u "required"))] None []);
   (El (u "xsd:anyAttribute") [((u "processContents"), (u "lax")); ((u "namespace"), (u "##other"))] None [])])]);
   (El (u "xsd:any") [((u "namespace"), (u "##other")); ((u "processContents"), (u "lax")); ((u "minOccurs"), (u "0")); ((u "maxOccurs"), (u "unbounded"))] None [])]);
   (El (u "xsd:attribute") [((u "name"), (u "rate-1")); ((u "type"), (u "xsd:decimal")); ((u "use"), (u "optional"))] None []);
   (El (u "xsd:attribute") [((u "name"), (u "rate-2")); ((u "type"), (u "xsd:decimal")); ((u "use"), (u "optional"))] None []);
   (El (u "xsd:anyAttribute") [((u "processContents"), (u "lax")); ((u "namespace"), (u "##other"))] None [])])]);
   (El (u "xsd:element") [((u "name"), (u "loan-status")); ((u "minOccurs"), (u "0")); ((u "maxOccurs"), (u "1"))] None [(El (u "xsd:complexType") [] None [(El (u "xsd:sequence") [] None [(El (u "xsd:element") [((u "name"), (u "interest-received")); ((u "type"), (u "xsd:decimal")); ((u "minOccurs"), (u "0")); ((u "maxOccurs"), (u "1"))] None []);
   (El (u "xsd:element") [((u "name"), (u "principal-outstanding")); ((u "type"), (u "xsd:decimal")); ((u "minOccurs"), (u "0")); ((u "maxOccurs"), (u "1"))] None []);
   (El (u "xsd:element") [((u "name"), (u "principal-arrears")); ((u "type"), (u "xsd:decimal")); ((u "minOccurs"), (u "0")); ((u "maxOccurs"), (u "1"))] None []);
   (El (u "xsd:element") [((u "name"), (u "interest-arrears")); ((u "type"), (u "xsd:decimal")); ((u "minOccurs"), (u "0")); ((u "maxOccurs"), (u "1"))] None []);
   (El (u "xsd:any") [((u "namespace"), (u "##other")); ((u "processContents"), (u "lax")); ((u "minOccurs"), (u "0")); ((u "maxOccurs"), (u "unbounded"))] None [])]);
   (El (u "xsd:attribute") [((u "name"), (u "year")); ((u "type"), (u "xsd:decimal")); ((u "use"), (u "required"))] None []);
   (El (u "xsd:attribute") [((u "ref"), (u "currency")); ((u "use"), (u "optional"))] None []);
   (El (u "xsd:attribute") [((u "ref"), (u "value-date")); ((u "use"), (u "required"))] None []);
   (El (u "xsd:anyAttribute") [((u "processContents"), (u "lax")); ((u "namespace"), (u "##other"))] None [])])]);
   (El (u "xsd:element") [((u "name"), (u "channel-code")); ((u "type"), (u "xsd:string")); ((u "minOccurs"), (u "0")); ((u "maxOccurs"), (u "1"))] None []);
   (El (u "xsd:any") [((u "namespace"), (u "##other")); ((u "processContents"), (u "lax")); ((u "minOccurs"), (u "0")); ((u "maxOccurs"), (u "unbounded"))] None [])]);
   (El (u "xsd:anyAttribute") [((u "processContents"), (u "lax")); ((u "namespace"), (u "##other"))] None [])])]);
   (El (u "xsd:element") [((u "name"), (u "fss"))] None [(El (u "xsd:complexType") [] None [(El (u "xsd:sequence") [] None [(El (u "xsd:element") [((u "name"), (u "forecast")); ((u "minOccurs"), (u "0")); ((u "maxOccurs"), (u "unbounded"))] None [(El (u "xsd:complexType") [] None [(El (u "xsd:simpleContent") [] None [(El (u "xsd:extension") [((u "base"), (u "xsd:decimal"))] None [(El (u "xsd:attribute") [((u "name"), (u "year")); ((u "type"), (u "xsd:decimal")); ((u "use"), (u "required"))] None []);
   (El (u "xsd:attribute") [((u "ref"), (u "currency")); ((u "use"), (u "optional"))] None []);
   (El (u "xsd:attribute") [((u "ref"), (u "value-date")); ((u "use"), (u "optional"))] None []);
   (El (u "xsd:anyAttribute") [((u "processContents"), (u "lax")); ((u "namespace"), (u "##other"))] None [])])])])]);
   (El (u "xsd:any") [((u "namespace"), (u "##other")); ((u "processContents"), (u "lax")); ((u "minOccurs"), (u "0")); ((u "maxOccurs"), (u "unbounded"))] None [])]);
   (El (u "xsd:attribute") [((u "name"), (u "extraction-date")); ((u "type"), (u "xsd:date")); ((u "use"), (u "required"))] None []);
   (El (u "xsd:attribute") [((u "name"), (u "priority")); ((u "type"), (u "xsd:boolean")); ((u "use"), (u "optional"))] None []);
   (El (u "xsd:attribute") [((u "name"), (u "phaseout-year")); ((u "type"), (u "xsd:decimal")); ((u "use"), (u "optional"))] None []);
   (El (u "xsd:anyAttribute") [((u "processContents"), (u "lax")); ((u "namespace"), (u "##other"))] None [])])]);
   (El (u "xsd:complexType") [((u "name"), (u "aidTypeBase"))] None [(El (u "xsd:sequence") [] None [(El (u "xsd:any") [((u "namespace"), (u "##other")); ((u "processContents"), (u "lax")); ((u "minOccurs"), (u "0")); ((u "maxOccurs"), (u "unbounded"))] None [])]);
   (El (u "xsd:attribute") [((u "name"), (u "code")); ((u "type"), (u "xsd:string")); ((u "use"), (u "required"))] None []);
   (El (u "xsd:attribute") [((u "name"), (u "vocabulary")); ((u "type"), (u "xsd:string"))] None []);
   (El (u "xsd:anyAttribute") [((u "processContents"), (u "lax")); ((u "namespace"), (u "##other"))] None [])]);
   (El (u "xsd:complexType") [((u "name"), (u "currencyType"))] None [(El (u "xsd:simpleContent") [] None [(El (u "xsd:extension") [((u "base"), (u "xsd:decimal"))] None [(El (u "xsd:attribute") [((u "ref"), (u "currency")); ((u "use"), (u "optional"))] None []);
   (El (u "xsd:attribute") [((u "ref"), (u "value-date")); ((u "use"), (u "required"))] None []);
   (El (u "xsd:anyAttribute") [((u "processContents"), (u "lax")); ((u "namespace"), (u "##other"))] None [])])])]);
   (El (u "xsd:attribute") [((u "name"), (u "currency")); ((u "type"), (u "xsd:string"))] None []);
   (El (u "xsd:complexType") [((u "name"), (u "documentLinkResultBase"))] None [(El (u "xsd:complexContent") [] None [(El (u "xsd:extension") [((u "base"), (u "documentLinkBase"))] None [])])]);
   (El (u "xsd:complexType") [((u "name"), (u "resultLocationBase"))] None [(El (u "xsd:sequence") [] None [(El (u "xsd:any") [((u "namespace"), (u "##other")); ((u "processContents"), (u "lax")); ((u "minOccurs"), (u "0")); ((u "maxOccurs"), (u "unbounded"))] None [])]);
   (El (u "xsd:attribute") [((u "name"), (u "ref")); ((u "use"), (u "optional")); ((u "type"), (u "xsd:string"))] None []);
   (El (u "xsd:anyAttribute") [((u "processContents"), (u "lax")); ((u "namespace"), (u "##other"))] None [])]);
   (El (u "xsd:element") [((u "name"), (u "dimension"))] None [(El (u "xsd:complexType") [] None [(El (u "xsd:sequence") [] None [(El (u "xsd:any") [((u "namespace"), (u "##other")); ((u "processContents"), (u "lax")); ((u "minOccurs"), (u "0")); ((u "maxOccurs"), (u "unbounded"))] None [])]);
   (El (u "xsd:attribute") [((u "name"), (u "name")); ((u "use"), (u "optional")); ((u "type"), (u "xsd:string"))] None []);
   (El (u "xsd:attribute") [((u "name"), (u "value")); ((u "use"), (u "optional")); ((u "type"), (u "xsd:string"))] None []);
   (El (u "xsd:anyAttribute") [((u "processContents"), (u "lax")); ((u "namespace"), (u "##other"))] None [])])])]).
(** examples/iati/iati-common.xsd *)
Definition xsd_1 : xel :=
  (El (u "xsd:schema") [((u "version"), (u "2.03"))] None [(El (u "xsd:import") [((u "namespace"), (u "http://www.w3.org/XML/1998/namespace")); ((u "schemaLocation"), (u "xml.xsd"))] None []);
   (El (u "xsd:element") [((u "name"), (u "narrative"))] None [(El (u "xsd:complexType") [] None [(El (u "xsd:simpleContent") [] None [(El (u "xsd:extension") [((u "base"), (u "xsd:string"))] None [(El (u "xsd:attribute") [((u "ref"), (u "xml:lang")); ((u "use"), (u "optional"))] None []);
   (El (u "xsd:anyAttribute") [((u "processContents"), (u "lax")); ((u "namespace"), (u "##other"))] None [])])])])]);
   (El (u "xsd:element") [((u "name"), (u "title")); ((u "type"), (u "textRequiredType"))] None []);
   (El (u "xsd:element") [((u "name"), (u "description")); ((u "type"), (u "descriptionBase"))] None []);
   (El (u "xsd:element") [((u "name"), (u "comment")); ((u "type"), (u "textRequiredType"))] None []);
   (El (u "xsd:element") [((u "name"), (u "reporting-org"))] None [(El (u "xsd:complexType") [] None [(El (u "xsd:sequence") [] None [(El (u "xsd:element") [((u "ref"), (u "narrative")); ((u "minOccurs"), (u "1")); ((u "maxOccurs"), (u "unbounded"))] None []);
   (El (u "xsd:any") [((u "namespace"), (u "##other")); ((u "processContents"), (u "lax")); ((u "minOccurs"), (u "0")); ((u "maxOccurs"), (u "unbounded"))] None [])]);
   (El (u "xsd:attribute") [((u "name"), (u "ref")); ((u "use"), (u "required")); ((u "type"), (u "xsd:string"))] None []);
   (El (u "xsd:attribute") [((u "name"), (u "type")); ((u "use"), (u "required")); ((u "type"), (u "xsd:string"))] None []);
   (El (u "xsd:attribute") [((u "name"), (u "secondary-reporter")); ((u "type"), (u "xsd:boolean")); ((u "use"), (u "optional"))] None []);
   (El (u "xsd:anyAttribute") [((u "processContents"), (u "lax")); ((u "namespace"), (u "##other"))] None [])])]);
   (El (u "xsd:attribute") [((u "name"), (u "value-date")); ((u "type"), (u "xsd:date"))] None []);
   (El (u "xsd:complexType") [((u "name"), (u "descriptionBase"))] None [(El (u "xsd:sequence") [] None [(El (u "xsd:element") [((u "ref"), (u "narrative")); ((u "minOccurs"), (u "1")); ((u "maxOccurs"), (u "unbounded"))] None []);
   (El (u "xsd:any") [((u "namespace"), (u "##other")); ((u "processContents"), (u "lax")); ((u "minOccurs"), (u "0")); ((u "maxOccurs"), (u "unbounded"))] None [])]);
   (El (u "xsd:anyAttribute") [((u "processContents"), (u "lax")); ((u "namespace"), (u "##other"))] None [])]);
   (El (u "xsd:complexType") [((u "name"), (u "textType"))] None [(El (u "xsd:sequence") [] None [(El (u "xsd:element") [((u "ref"), (u "narrative")); ((u "minOccurs"), (u "0")); ((u "maxOccurs"), (u "unbounded"))] None []);
   (El (u "xsd:any") [((u "namespace"), (u "##other")); ((u "processContents"), (u "lax")); ((u "minOccurs"), (u "0")); ((u "maxOccurs"), (u "unbounded"))] None [])]);
   (El (u "xsd:anyAttribute") [((u "processContents"), (u "lax")); ((u "namespace"), (u "##other"))] None [])]);
   (El (u "xsd:complexType") [((u "name"), (u "textRequiredType"))] None [(El (u "xsd:sequence") [] None [(El (u "xsd:element") [((u "ref"), (u "narrative")); ((u "minOccurs"), (u "1")); ((u "maxOccurs"), (u "unbounded"))] None []);
   (El (u "xsd:any") [((u "namespace"), (u "##other")); ((u "processContents"), (u "lax")); ((u "minOccurs"), (u "0")); ((u "maxOccurs"), (u "unbounded"))] None [])]);
   (El (u "xsd:anyAttribute") [((u "processContents"), (u "lax")); ((u "namespace"), (u "##other"))] None [])]);
   (El (u "xsd:complexType") [((u "name"), (u "documentLinkBase"))] None [(El (u "xsd:sequence") [] None [(El (u "xsd:element") [((u "ref"), (u "title")); ((u "minOccurs"), (u "1")); ((u "maxOccurs"), (u "1"))] None []);
   (El (u "xsd:element") [((u "name"), (u "description")); ((u "minOccurs"), (u "0")); ((u "maxOccurs"), (u "1")); ((u "type"), (u "descriptionBase"))] None []);
   (El (u "xsd:element") [((u "name"), (u "category")); ((u "minOccurs"), (u "1")); ((u "maxOccurs"), (u "unbounded"))] None [(El (u "xsd:complexType") [] None [(El (u "xsd:sequence") [] None [(El (u "xsd:any") [((u "namespace"), (u "##other")); ((u "processContents"), (u "lax")); ((u "minOccurs"), (u "0")); ((u "maxOccurs"), (u "unbounded"))] None [])]);
   (El (u "xsd:attribute") [((u "name"), (u "code")); ((u "use"), (u "required")); ((u "type"), (u "xsd:string"))] None []);
   (El (u "xsd:anyAttribute") [((u "processContents"), (u "lax")); ((u "namespace"), (u "##other"))] None [])])]);
   (El (u "xsd:element") [((u "name"), (u "language")); ((u "minOccurs"), (u "0")); ((u "maxOccurs"), (u "unbounded"))] None [(El (u "xsd:complexType") [] None [(El (u "xsd:sequence") [] None [(El (u "xsd:any") [((u "namespace"), (u "##other")); ((u "processContents"), (u "lax")); ((u "minOccurs"), (u "0")); ((u "maxOccurs"), (u "unbounded"))] None [])]);
   (El (u "xsd:attribute") [((u "name"), (u "code")); ((u "use"), (u "required")); ((u "type"), (u "xsd:string"))] None []);
   (El (u "xsd:anyAttribute") [((u "processContents"), (u "lax")); ((u "namespace"), (u "##other"))] None [])])]);
   (El (u "xsd:element") [((u "name"), (u "document-date")); ((u "minOccurs"), (u "0")); ((u "maxOccurs"), (u "1"))] None [(El (u "xsd:complexType") [] None [(El (u "xsd:sequence") [] None [(El (u "xsd:any") [((u "namespace"), (u "##other")); ((u "processContents"), (u "lax")); ((u "minOccurs"), (u "0")); ((u "maxOccurs"), (u "unbounded"))] None [])]);
   (El (u "xsd:attribute") [((u "name"), (u "iso-date")); ((u "use"), (u "required")); ((u "type"), (u "xsd:date"))] None []);
   (El (u "xsd:anyAttribute") [((u "processContents"), (u "lax")); ((u "namespace"), (u "##other"))] None [])])]);
   (El (u "xsd:any") [((u "namespace"), (u "##other")); ((u "processContents"), (u "lax")); ((u "minOccurs"), (u "0")); ((u "maxOccurs"), (u "unbounded"))] None [])]);
   (El (u "xsd:attribute") [((u "name"), (u "url")); ((u "type"), (u "xsd:anyURI")); ((u "use"), (u "required"))] None []);
   (El (u "xsd:attribute") [((u "name"), (u "format")); ((u "type"), (u "xsd:string")); ((u "use"), (u "required"))] None []);
   (El (u "xsd:anyAttribute") [((u "processContents"), (u "lax")); ((u "namespace"), (u "##other"))] None [])])]).
(** examples/bods/unflatten: unflatten -f csv examples/bods/unflatten/input -o examples/bods/unflatten/actual/out.json --root-is-list --id-name=statementID --schema examples/bods/schema/bods-package.json *)
(* bods_unflatten *)
Goal True. holds (outcome_is (doc_world
    [((u "examples/bods/unflatten/input/extra.csv"), (line_text lf_ [(u "statementID,interests/0/type,interests/0/interestLevel,interests/0/beneficialOwnershipOrControl,interests/0/startDate,interests/0/share/exact");
      (u "fbfd0547-d0c6-4a00-b559-5c5e91c34f5c,shareholding,direct,True,2016-04-06,100")]));
     ((u "examples/bods/unflatten/input/main.csv"), (line_text lf_ [(u "statementID,statementType,statementDate,subject/describedByEntityStatement,interestedParty/describedByPersonStatement");
      (u "fbfd0547-d0c6-4a00-b559-5c5e91c34f5c,ownershipOrControlStatement,2017-11-18,1dc0e987-5c57-4a1c-b3ad-61353b66a9b7,019a93f1-e470-42e9-957b-03559861b2e2")]))]
    [] []
    [((u "examples/bods/schema/bods-package.json"), (VO None [((u "id"), (VS (SStr (u "bods-package.json")))); ((u "$schema"), (VS (SStr (u "http://json-schema.org/draft-04/schema#")))); ((u "version"), (VS (SStr (u "0.1")))); ((u "type"), (VS (SStr (u "array")))); ((u "items"), (VO None [((u "oneOf"), (VA [(VO (Some [((u "$ref"), (VS (SStr (u "entity-statement.json"))))]) [((u "id"), (VS (SStr (u "entity-statement.json")))); ((u "$schema"), (VS (SStr (u "http://json-schema.org/draft-04/schema#")))); ((u "version"), (VS (SStr (u "0.1")))); ((u "title"), (VS (SStr (u "Entity statement")))); ((u "description"), (VS (SStr (u "A statement identifying and describing the entity that is the subject of the ownership or control described in an ownership or control statement.")))); ((u "type"), (VS (SStr (u "object")))); ((u "properties"), (VO None [((u "statementID"), (VO (Some [((u "$ref"), (VS (SStr (u "components.json#/definitions/ID")))); ((u "propertyOrder"), (VS (SInt (1))))]) [((u "title"), (VS (SStr (u "Statement Identifier")))); ((u "description"), (VS (SStr (u "A persistent globally unique identifier for this statement.")))); ((u "type"), (VS (SStr (u "string")))); ((u "minLength"), (VS (SInt (32)))); ((u "maxLenth"), (VS (SInt (64))))])); ((u "statementType"), (VO None [((u "title"), (VS (SStr (u "Statement type")))); ((u "description"), (VS (SStr (u " This should always be 'entityStatement.")))); ((u "type"), (VS (SStr (u "string")))); ((u "enum"), (VA [(VS (SStr (u "entityStatement")))])); ((u "propertyOrder"), (VS (SInt (2))))])); ((u "statementDate"), (VO (Some [((u "$ref"), (VS (SStr (u "components.json#/definitions/StatementDate")))); ((u "propertyOrder"), (VS (SInt (3))))]) [((u "title"), (VS (SStr (u "Statement date")))); ((u "description"), (VS (SStr (u "The date on which this statement was made.")))); ((u "type"), (VS (SStr (u "string")))); ((u "format"), (VS (SStr (u "date"))))])); ((u "entityType"), (VO None [((u "title"), (VS (SStr (u "Type")))); ((u "description"), (VS (SStr (u "From the [entityType codelist](#entitytype). What kind of entity is this? The 'registeredEntity' code covers any legal entity created through an act of official registration, usually resulting in an identifier being assigned to the entity. The 'legalEntity' code covers other bodies with distinct legal personality (government departments, international institutions etc.).  The 'arrangement' code covers artificial entities, described in the data model for the purpose of associating one or more natural or legal persons together in an ownership or control relationship, but without implying that the parties to this arrangement have any other form of collective legal identity.")))); ((u "type"), (VS (SStr (u "string")))); ((u "enum"), (VA [(VS (SStr (u "registeredEntity"))); (VS (SStr (u "legalEntity"))); (VS (SStr (u "arrangement"))); (VS (SStr (u "anonymousEntity"))); (VS (SStr (u "unknownEntity")))])); ((u "codelist"), (VS (SStr (u "entityType.csv")))); ((u "openCodelist"), (VS (SBool false))); ((u "propertyOrder"), (VS (SInt (4))))])); ((u "missingInfoReason"), (VO None [((u "title"), (VS (SStr (u "Missing information reason(s)")))); ((u "description"), (VS (SStr (u "For EntityStatements with the type 'anonymousEntity' or 'unknownEntity' this field should contain an explanation of the reason that detailed information on the entity is not provided. This may be a standard descriptive phrase from the source system, or a free-text justification.")))); ((u "type"), (VS (SStr (u "string")))); ((u "propertyOrder"), (VS (SInt (5))))])); ((u "name"), (VO None [((u "title"), (VS (SStr (u "Entity name")))); ((u "description"), (VS (SStr (u "The declared name of this entity.")))); ((u "type"), (VS (SStr (u "string")))); ((u "propertyOrder"), (VS (SInt (6))))])); ((u "alternateNames"), (VO None [((u "title"), (VS (SStr (u "Alternative names")))); ((u "description"), (VS (SStr (u "An array of other names this entity is known by.")))); ((u "type"), (VS (SStr (u "array")))); ((u "items"), (VO None [((u "type"), (VS (SStr (u "string")))); ((u "title"), (VS (SStr (u "Name")))); ((u "description"), (VS (SStr (u "A name this entity is known by."))))])); ((u "propertyOrder"), (VS (SInt (7))))])); ((u "incorporatedInJurisdiction"), (VO (Some [((u "title"), (VS (SStr (u "Incorporated In Jurisdiction")))); ((u "description"), (VS (SStr (u "Details on where this legal entity is incorporated")))); ((u "$ref"), (VS (SStr (u "components.json#/definitions/Jurisdiction")))); ((u "propertyOrder"), (VS (SInt (10))))]) [((u "title"), (VS (SStr (u "Jurisdiction")))); ((u "description"), (VS (SStr (u "A jurisdiction MUST have a name. A jurisdiction SHOULD have an ISO ISO_3166-2 2-Digit country code, or ISO_3166-2 sub-division code.")))); ((u "type"), (VS (SStr (u "object")))); ((u "properties"), (VO None [((u "name"), (VO None [((u "title"), (VS (SStr (u "Name")))); ((u "description"), (VS (SStr (u "The name of the jurisdiction")))); ((u "type"), (VS (SStr (u "string"))))])); ((u "code"), (VO None [((u "title"), (VS (SStr (u "Country code")))); ((u "description"), (VS (SStr (u "The ISO_3166-2 2-Digit country code, or ISO_3166-2 sub-division code of the jurisdiction")))); ((u "type"), (VS (SStr (u "string")))); ((u "maxLength"), (VS (SInt (6)))); ((u "minLength"), (VS (SInt (2))))]))]))])); ((u "identifiers"), (VO None [((u "title"), (VS (SStr (u "Identifiers")))); ((u "description"), (VS (SStr (u "One or more official identifiers for this entity. Where available, official registration numbers should be provided.")))); ((u "type"), (VS (SStr (u "array")))); ((u "items"), (VO (Some [((u "$ref"), (VS (SStr (u "components.json#/definitions/Identifier"))))]) [((u "title"), (VS (SStr (u "Identifier")))); ((u "description"), (VS (SStr (u "An identifier that has been assigned to this entity. The scheme or list from which the identifier is drawn should be declared.")))); ((u "type"), (VS (SStr (u "object")))); ((u "properties"), (VO None [((u "id"), (VO None [((u "title"), (VS (SStr (u "ID")))); ((u "description"), (VS (SStr (u "The identifier for this entity as provided in the declared scheme.")))); ((u "type"), (VS (SStr (u "string"))))])); ((u "scheme"), (VO None [((u "title"), (VS (SStr (u "Scheme")))); ((u "description"), (VS (SStr (u "For entity statements, the scheme should be a entry from the [org-id.guide](http://www.org-id.guide) codelist. For person statements, recognised values include 'passport', 'internal' and 'id-card'.")))); ((u "type"), (VS (SStr (u "string"))))])); ((u "schemeName"), (VO None [((u "title"), (VS (SStr (u "Scheme name")))); ((u "Description"), (VS (SStr (u "The name of this scheme, where the org-id code is unknown or only an unvalidated string is provided.")))); ((u "type"), (VS (SStr (u "string"))))])); ((u "uri"), (VO None [((u "title"), (VS (SStr (u "URI")))); ((u "description"), (VS (SStr (u "Where this identifier has a [canonical URI](https://en.wikipedia.org/wiki/Uniform_Resource_Identifier) this may be included")))); ((u "type"), (VS (SStr (u "string")))); ((u "format"), (VS (SStr (u "uri"))))]))])); ((u "anyOf"), (VA [(VO None [((u "required"), (VA [(VS (SStr (u "scheme")))]))]); (VO None [((u "required"), (VA [(VS (SStr (u "schemeName")))]))]); (VO None [((u "required"), (VA [(VS (SStr (u "scheme"))); (VS (SStr (u "schemeName")))]))])]))])); ((u "propertyOrder"), (VS (SInt (20))))])); ((u "foundingDate"), (VO None [((u "title"), (VS (SStr (u "Founding date")))); ((u "description"), (VS (SStr (u "When was this entity founded, created or registered. Please provide as precise a date as possible in ISO 8601 format. When only the year or year and month is known, these can be given as YYYY or YYYY-MM.")))); ((u "type"), (VS (SStr (u "string")))); ((u "pattern"), (VS (SStr ([94; 40; 91; 92; 43; 45; 93; 63; 92; 100; 123; 52; 125; 40; 63; 33; 92; 100; 123; 50; 125; 8; 41; 41; 40; 40; 45; 63; 41; 40; 40; 48; 91; 49; 45; 57; 93; 124; 49; 91; 48; 45; 50; 93; 41; 40; 92; 51; 40; 91; 49; 50; 93; 92; 100; 124; 48; 91; 49; 45; 57; 93; 124; 51; 91; 48; 49; 93; 41; 41; 63; 124; 87; 40; 91; 48; 45; 52; 93; 92; 100; 124; 53; 91; 48; 45; 50; 93; 41; 40; 45; 63; 91; 49; 45; 55; 93; 41; 63; 124; 40; 48; 48; 91; 49; 45; 57; 93; 124; 48; 91; 49; 45; 57; 93; 92; 100; 124; 91; 49; 50; 93; 92; 100; 123; 50; 125; 124; 51; 40; 91; 48; 45; 53; 93; 92; 100; 124; 54; 91; 49; 45; 54; 93; 41; 41; 41; 40; 91; 84; 92; 115; 93; 40; 40; 40; 91; 48; 49; 93; 92; 100; 124; 50; 91; 48; 45; 51; 93; 41; 40; 40; 58; 63; 41; 91; 48; 45; 53; 93; 92; 100; 41; 63; 124; 50; 52; 92; 58; 63; 48; 48; 41; 40; 91; 92; 46; 44; 93; 92; 100; 43; 40; 63; 33; 58; 41; 41; 63; 41; 63; 40; 92; 49; 55; 91; 48; 45; 53; 93; 92; 100; 40; 91; 92; 46; 44; 93; 92; 100; 43; 41; 63; 41; 63; 40; 91; 122; 90; 93; 124; 40; 91; 92; 43; 45; 93; 41; 40; 91; 48; 49; 93; 92; 100; 124; 50; 91; 48; 45; 51; 93; 41; 58; 63; 40; 91; 48; 45; 53; 93; 92; 100; 41; 63; 41; 63; 41; 63; 41; 63; 36]%N)))); ((u "propertyOrder"), (VS (SInt (30))))])); ((u "dissolutionDate"), (VO None [((u "title"), (VS (SStr (u "Dissolution date")))); ((u "description"), (VS (SStr (u "If this entity is no longer active, provide the date on which it was dissolved or ceased. Please provide as precise a date as possible in ISO 8601 format. When only the year or year and month is known, these can be given as YYYY or YYYY-MM.")))); ((u "type"), (VS (SStr (u "string")))); ((u "pattern"), (VS (SStr ([94; 40; 91; 92; 43; 45; 93; 63; 92; 100; 123; 52; 125; 40; 63; 33; 92; 100; 123; 50; 125; 8; 41; 41; 40; 40; 45; 63; 41; 40; 40; 48; 91; 49; 45; 57; 93; 124; 49; 91; 48; 45; 50; 93; 41; 40; 92; 51; 40; 91; 49; 50; 93; 92; 100; 124; 48; 91; 49; 45; 57; 93; 124; 51; 91; 48; 49; 93; 41; 41; 63; 124; 87; 40; 91; 48; 45; 52; 93; 92; 100; 124; 53; 91; 48; 45; 50; 93; 41; 40; 45; 63; 91; 49; 45; 55; 93; 41; 63; 124; 40; 48; 48; 91; 49; 45; 57; 93; 124; 48; 91; 49; 45; 57; 93; 92; 100; 124; 91; 49; 50; 93; 92; 100; 123; 50; 125; 124; 51; 40; 91; 48; 45; 53; 93; 92; 100; 124; 54; 91; 49; 45; 54; 93; 41; 41; 41; 40; 91; 84; 92; 115; 93; 40; 40; 40; 91; 48; 49; 93; 92; 100; 124; 50; 91; 48; 45; 51; 93; 41; 40; 40; 58; 63; 41; 91; 48; 45; 53; 93; 92; 100; 41; 63; 124; 50; 52; 92; 58; 63; 48; 48; 41; 40; 91; 92; 46; 44; 93; 92; 100; 43; 40; 63; 33; 58; 41; 41; 63; 41; 63; 40; 92; 49; 55; 91; 48; 45; 53; 93; 92; 100; 40; 91; 92; 46; 44; 93; 92; 100; 43; 41; 63; 41; 63; 40; 91; 122; 90; 93; 124; 40; 91; 92; 43; 45; 93; 41; 40; 91; 48; 49; 93; 92; 100; 124; 50; 91; 48; 45; 51; 93; 41; 58; 63; 40; 91; 48; 45; 53; 93; 92; 100; 41; 63; 41; 63; 41; 63; 41; 63; 36]%N)))); ((u "propertyOrder"), (VS (SInt (35))))])); ((u "addresses"), (VO None [((u "title"), (VS (SStr (u "Addresses")))); ((u "description"), (VS (SStr (u "One or more addresses for this entity.")))); ((u "type"), (VS (SStr (u "array")))); ((u "items"), (VO (Some [((u "$ref"), (VS (SStr (u "components.json#/definitions/Address"))))]) [((u "title"), (VS (SStr (u "Address")))); ((u "description"), (VS (SStr (u "A free text address string, providing as much address data as is relevant, suitable for processing using address parsing algorithms. For some uses (for example, Place of Birth) only a town and country are required.")))); ((u "type"), (VS (SStr (u "object")))); ((u "properties"), (VO None [((u "type"), (VO None [((u "title"), (VS (SStr (u "Type")))); ((u "description"), (VS (SStr (u "What type of address is this?")))); ((u "type"), (VS (SStr (u "string")))); ((u "enum"), (VA [(VS (SStr (u "placeOfBirth"))); (VS (SStr (u "home"))); (VS (SStr (u "residence"))); (VS (SStr (u "registered"))); (VS (SStr (u "service"))); (VS (SStr (u "alternative")))])); ((u "codelist"), (VS (SStr (u "addressType.csv")))); ((u "openCodelist"), (VS (SBool false)))])); ((u "address"), (VO None [((u "title"), (VS (SStr (u "Address")))); ((u "description"), (VS (SStr (u "The address, with each line or component of the address separated by a line-break or comma. This field may also include the postal code. ")))); ((u "type"), (VS (SStr (u "string"))))])); ((u "postCode"), (VO None [((u "title"), (VS (SStr (u "Postcode")))); ((u "description"), (VS (SStr (u "The postal code for this address.")))); ((u "type"), (VS (SStr (u "string"))))])); ((u "country"), (VO None [((u "title"), (VS (SStr (u "Country")))); ((u "description"), (VS (SStr (u "The ISO 2-Digit county code for this address.")))); ((u "type"), (VS (SStr (u "string")))); ((u "minLength"), (VS (SInt (2)))); ((u "maxLength"), (VS (SInt (2))))]))]))])); ((u "propertyOrder"), (VS (SInt (40))))])); ((u "uri"), (VO None [((u "title"), (VS (SStr (u "URI")))); ((u "description"), (VS (SStr (u "Where a [persistent URI](https://en.wikipedia.org/wiki/Uniform_Resource_Identifier) is available for this entity this should be included.")))); ((u "type"), (VS (SStr (u "string")))); ((u "format"), (VS (SStr (u "uri")))); ((u "propertyOrder"), (VS (SInt (21))))])); ((u "replacesStatements"), (VO (Some [((u "$ref"), (VS (SStr (u "components.json#/definitions/ReplacesStatements")))); ((u "propertyOrder"), (VS (SInt (100))))]) [((u "title"), (VS (SStr (u "Replaces statement(s)")))); ((u "description"), (VS (SStr (u "If this statement replaces a previous statement or statements, provide the identifier(s) for the previous statement(s) here. Consuming applications are advised to mark the identified statements as no longer active.")))); ((u "type"), (VS (SStr (u "array")))); ((u "items"), (VO None [((u "title"), (VS (SStr (u "Statement identifier")))); ((u "description"), (VS (SStr (u "The identifier of a statement that is no longer active.")))); ((u "type"), (VS (SStr (u "string")))); ((u "minLength"), (VS (SInt (32)))); ((u "maxLength"), (VS (SInt (64))))]))])); ((u "source"), (VO (Some [((u "title"), (VS (SStr (u "Source")))); ((u "description"), (VS (SStr (u "The source of information about this entity.")))); ((u "$ref"), (VS (SStr (u "components.json#/definitions/Source")))); ((u "propertyOrder"), (VS (SInt (89))))]) [((u "title"), (VS (SStr (u "Source")))); ((u "description"), (VS (SStr (u "The source object is used to explain where information in a statement originated from, and to link to supporting information.")))); ((u "type"), (VS (SStr (u "object")))); ((u "properties"), (VO None [((u "type"), (VO None [((u "title"), (VS (SStr (u "Source type")))); ((u "description"), (VS (SStr (u "What type of source is this? Multiple tags can be combined. Values should come from the [source type](#sourcetype) codelist.")))); ((u "type"), (VS (SStr (u "array")))); ((u "items"), (VO None [((u "type"), (VS (SStr (u "string")))); ((u "enum"), (VA [(VS (SStr (u "selfDeclaration"))); (VS (SStr (u "officialRegister"))); (VS (SStr (u "thirdParty"))); (VS (SStr (u "primaryResearch"))); (VS (SStr (u "verified")))])); ((u "codelist"), (VS (SStr (u "sourceType.csv")))); ((u "openCodelist"), (VS (SBool false)))]))])); ((u "description"), (VO None [((u "title"), (VS (SStr (u "Description")))); ((u "description"), (VS (SStr (u "Where required, additional free-text information about the source of this statement can be provided here.")))); ((u "type"), (VS (SStr (u "string"))))])); ((u "url"), (VO None [((u "title"), (VS (SStr (u "Source URL")))); ((u "description"), (VS (SStr (u "If this information was fetched from an external URL, or a machine or human readable web page is available that provides addition information on how this statement was sourced, provide the URL.")))); ((u "type"), (VS (SStr (u "string"))))])); ((u "retrievedAt"), (VO None [((u "title"), (VS (SStr (u "Retrieved at")))); ((u "description"), (VS (SStr (u "If this statement was imported from some external system, include a timestamp indicating when this took place. The statement's own date should be set based on the source information. ")))); ((u "type"), (VS (SStr (u "string")))); ((u "format"), (VS (SStr (u "datetime"))))])); ((u "assertedBy"), (VO None [((u "title"), (VS (SStr (u "Asserted by")))); ((u "description"), (VS (SStr (u "Who is making this statement? This may be the name of the person or organisation making a self-declaration (in which case, please make sure the name field matches the organisation or person name field), or the name or description of some other party. If this statement has been verified, this may also include the name of the organisation providing verification.")))); ((u "type"), (VS (SStr (u "array")))); ((u "items"), (VO (Some [((u "$ref"), (VS (SStr (u "#/definitions/Agent"))))]) [((u "type"), (VS (SStr (u "object")))); ((u "title"), (VS (SStr (u "Agent")))); ((u "description"), (VS (SStr (u "An individual, organisation or other responsible agent making, or supporting, a given statement or annotation.")))); ((u "properties"), (VO None [((u "name"), (VO None [((u "title"), (VS (SStr (u "Name")))); ((u "description"), (VS (SStr (u "The name of the agent")))); ((u "type"), (VS (SStr (u "string"))))])); ((u "uri"), (VO None [((u "title"), (VS (SStr (u "URI")))); ((u "description"), (VS (SStr (u "An optional URI to identify the agent.")))); ((u "type"), (VS (SStr (u "string")))); ((u "format"), (VS (SStr (u "uri"))))]))]))]))]))]))])); ((u "annotations"), (VO None [((u "title"), (VS (SStr (u "Annotations")))); ((u "description"), (VS (SStr (u "Annotations about this statement or parts of this statement")))); ((u "type"), (VS (SStr (u "array")))); ((u "items"), (VO (Some [((u "$ref"), (VS (SStr (u "components.json#/definitions/Annotation"))))]) [((u "title"), (VS (SStr (u "Annotation")))); ((u "description"), (VS (SStr (u "An annotation provides additional information about ownership or control data being provided. Annotations can be provided in free-text, and can apply to a whole statement, an object or a single field. Additional extended properties can be included on the annotation object to provide structured data where required.")))); ((u "type"), (VS (SStr (u "object")))); ((u "properties"), (VO None [((u "statementPointerTarget"), (VO None [((u "title"), (VS (SStr (u "Statement Fragment Pointer")))); ((u "description"), (VS (SStr (u "An [RFC6901 JSON Pointer](https://tools.ietf.org/html/rfc6901) describing the target fragment of the statement that this annotation applies to, starting from the root of the statement. A value of '/' indicates that the annotation applies to the whole statement.")))); ((u "type"), (VS (SStr (u "string"))))])); ((u "creationDate"), (VO None [((u "title"), (VS (SStr (u "Creation Date")))); ((u "description"), (VS (SStr (u "The date this annotation was created.")))); ((u "type"), (VS (SStr (u "string")))); ((u "format"), (VS (SStr (u "date"))))])); ((u "createdBy"), (VO None [((u "title"), (VS (SStr (u "Created By")))); ((u "description"), (VS (SStr (u "The person, organisation or agent that created this annotation.")))); ((u "type"), (VS (SStr (u "object")))); ((u "properties"), (VO None [((u "name"), (VO None [((u "title"), (VS (SStr (u "Name")))); ((u "description"), (VS (SStr (u "The name of the person, organisation or agent that created this annotation.")))); ((u "type"), (VS (SStr (u "string"))))])); ((u "uri"), (VO None [((u "title"), (VS (SStr (u "URI")))); ((u "description"), (VS (SStr (u "An optional URI to identify person, organisation or agent that created this annotation.")))); ((u "type"), (VS (SStr (u "string")))); ((u "format"), (VS (SStr (u "uri"))))]))]))])); ((u "motivation"), (VO None [((u "title"), (VS (SStr (u "Motivation")))); ((u "description"), (VS (SStr (u "The motivation for this annotation, chosen from a codelist. See the [annotationMotivation](#annotationmotivation) codelist.")))); ((u "type"), (VS (SStr (u "string")))); ((u "enum"), (VA [(VS (SStr (u "commenting"))); (VS (SStr (u "correcting"))); (VS (SStr (u "identifying"))); (VS (SStr (u "linking"))); (VS (SStr (u "transformation")))])); ((u "codelist"), (VS (SStr (u "annotationMotivation.csv")))); ((u "openCodelist"), (VS (SBool true)))])); ((u "description"), (VO None [((u "title"), (VS (SStr (u "Description")))); ((u "description"), (VS (SStr (u "A free-text description to annotate this statement or field.")))); ((u "type"), (VS (SStr (u "string"))))])); ((u "transformedContent"), (VO None [((u "type"), (VS (SStr (u "string")))); ((u "title"), (VS (SStr (u "Transformed content")))); ((u "description"), (VS (SStr (u "A representation of the annotation target after the transformation in the description field has been applied. This field SHOULD only be used when the motivation is transformation."))))])); ((u "url"), (VO None [((u "title"), (VS (SStr (u "URL")))); ((u "description"), (VS (SStr (u "A linked resource that annotates, provides context for or enhances this statement. The content of the resource, or the relationship to the statement, MAY be described in the description field.")))); ((u "type"), (VS (SStr (u "string")))); ((u "format"), (VS (SStr (u "uri"))))]))])); ((u "anyOf"), (VA [(VO None [((u "properties"), (VO None [((u "motivation"), (VO None [((u "enum"), (VA [(VS (SStr (u "linking")))]))]))])); ((u "required"), (VA [(VS (SStr (u "statementPointerTarget"))); (VS (SStr (u "motivation")))]))]); (VO None [((u "properties"), (VO None [((u "motivation"), (VO None [((u "enum"), (VA [(VS (SStr (u "linking"))); (VS (SStr (u "identifying"))); (VS (SStr (u "commenting"))); (VS (SStr (u "correcting"))); (VS (SStr (u "transformation")))]))]))])); ((u "required"), (VA [(VS (SStr (u "statementPointerTarget"))); (VS (SStr (u "motivation")))]))])]))])); ((u "propertyOrder"), (VS (SInt (90))))]))])); ((u "required"), (VA [(VS (SStr (u "statementID"))); (VS (SStr (u "statementType"))); (VS (SStr (u "entityType")))]))]); (VO (Some [((u "$ref"), (VS (SStr (u "person-statement.json"))))]) [((u "id"), (VS (SStr (u "person-statement.json")))); ((u "$schema"), (VS (SStr (u "http://json-schema.org/draft-04/schema#")))); ((u "version"), (VS (SStr (u "0.1")))); ((u "type"), (VS (SStr (u "object")))); ((u "title"), (VS (SStr (u "Person statement")))); ((u "description"), (VS (SStr (u "A person statement describes the information known about a natural person at a particular point in time, or from a given submission of information")))); ((u "properties"), (VO None [((u "statementID"), (VO (Some [((u "$ref"), (VS (SStr (u "components.json#/definitions/ID")))); ((u "propertyOrder"), (VS (SInt (1))))]) [((u "title"), (VS (SStr (u "Statement Identifier")))); ((u "description"), (VS (SStr (u "A persistent globally unique identifier for this statement.")))); ((u "type"), (VS (SStr (u "string")))); ((u "minLength"), (VS (SInt (32)))); ((u "maxLenth"), (VS (SInt (64))))])); ((u "statementType"), (VO None [((u "title"), (VS (SStr (u "Statement type")))); ((u "description"), (VS (SStr (u "This should always be 'personStatement.")))); ((u "type"), (VS (SStr (u "string")))); ((u "enum"), (VA [(VS (SStr (u "personStatement")))])); ((u "propertyOrder"), (VS (SInt (2)))); ((u "openCodelist"), (VS (SBool false))); ((u "codelist"), (VS (SStr (u "statementType.csv"))))])); ((u "statementDate"), (VO (Some [((u "$ref"), (VS (SStr (u "components.json#/definitions/StatementDate")))); ((u "propertyOrder"), (VS (SInt (3))))]) [((u "title"), (VS (SStr (u "Statement date")))); ((u "description"), (VS (SStr (u "The date on which this statement was made.")))); ((u "type"), (VS (SStr (u "string")))); ((u "format"), (VS (SStr (u "date"))))])); ((u "personType"), (VO None [((u "title"), (VS (SStr (u "Person type")))); ((u "description"), (VS (SStr (u "Use the [personType codelist](#persontype). The ultimate beneficial owner of a legal entity is always a natural person. Where the beneficial owner has been identified, but information about them cannot be disclosed, use 'anonymousPerson'. Where the beneficial owner has not been clearly identified, use 'unknownPerson'. Where the beneficial owner has been identified use knownPerson.")))); ((u "type"), (VS (SStr (u "string")))); ((u "enum"), (VA [(VS (SStr (u "anonymousPerson"))); (VS (SStr (u "unknownPerson"))); (VS (SStr (u "knownPerson")))])); ((u "propertyOrder"), (VS (SInt (4)))); ((u "codelist"), (VS (SStr (u "personType.csv")))); ((u "openCodelist"), (VS (SBool false)))])); ((u "missingInfoReason"), (VO None [((u "title"), (VS (SStr (u "Missing information reason(s)")))); ((u "description"), (VS (SStr (u "For PersonStatements with the type 'anonymousPerson' or 'unknownPerson' this field should contain an explanation of the reason that detailed information on the person is not provided. This may be a standard descriptive phrase from the source system, or a free-text justification.")))); ((u "type"), (VS (SStr (u "string")))); ((u "propertyOrder"), (VS (SInt (5))))])); ((u "names"), (VO None [((u "title"), (VS (SStr (u "Names")))); ((u "description"), (VS (SStr (u "One or more known names for this individual.")))); ((u "type"), (VS (SStr (u "array")))); ((u "items"), (VO (Some [((u "$ref"), (VS (SStr (u "components.json#/definitions/Name"))))]) [((u "title"), (VS (SStr (u "Name")))); ((u "description"), (VS (SStr (u "An name by which this individual is known. Names should be provided in fullName, and may optionally be broken down in the familyName, givenName and patronymicName fields, based on the [EC ISA Core Person Vocabulary](https://joinup.ec.europa.eu/solution/e-government-core-vocabularies) definitions.")))); ((u "type"), (VS (SStr (u "object")))); ((u "properties"), (VO None [((u "type"), (VO None [((u "title"), (VS (SStr (u "Type")))); ((u "description"), (VS (SStr (u "What kind of name is this? See the [nameType](#nametype) codelist.")))); ((u "type"), (VS (SStr (u "string")))); ((u "enum"), (VA [(VS (SStr (u "individual"))); (VS (SStr (u "translation"))); (VS (SStr (u "former"))); (VS (SStr (u "alias"))); (VS (SStr (u "aka"))); (VS (SStr (u "nick"))); (VS (SStr (u "birth")))])); ((u "codelist"), (VS (SStr (u "nameType.csv")))); ((u "openCodelist"), (VS (SBool false)))])); ((u "fullName"), (VO None [((u "title"), (VS (SStr (u "Full name")))); ((u "description"), (VS (SStr (u "The full name contains the complete name of a person as one string.")))); ((u "type"), (VS (SStr (u "string"))))])); ((u "familyName"), (VO None [((u "title"), (VS (SStr (u "Family name")))); ((u "description"), (VS (SStr (u "A family name is usually shared by members of a family. This attribute also carries prefixes or suffixes which are part of the Family Name, e.g. 'de Boer', 'van de Putte', 'von und zu Orlow'. Multiple family names, such as are commonly found in Hispanic countries, are recorded in the single Family Name field so that, for example, Miguel de Cervantes Saavedra's Family Name would be recorded as 'Cervantes Saavedra.'")))); ((u "type"), (VS (SStr (u "string"))))])); ((u "givenName"), (VO None [((u "title"), (VS (SStr (u "Given names")))); ((u "description"), (VS (SStr (u "A given name, or multiple given names, are the denominator(s) that identify an individual within a family. These are given to a person by his or her parents at birth or may be legally recognised as 'given names' through a formal process. All given names are ordered in one field so that, for example, the given name for Johann Sebastian Bach is 'Johann Sebastian.'")))); ((u "type"), (VS (SStr (u "string"))))])); ((u "patronymicName"), (VO None [((u "title"), (VS (SStr (u "Patronymic Name")))); ((u "description"), (VS (SStr (u "Patronymic names are important in some countries. Iceland does not have a concept of family name in the way that many other European countries do, for example. In Bulgaria and Russia, patronymic names are in every day usage, for example, the 'Sergeyevich' in 'Mikhail Sergeyevich Gorbachev'")))); ((u "type"), (VS (SStr (u "string"))))]))]))])); ((u "propertyOrder"), (VS (SInt (10))))])); ((u "identifiers"), (VO None [((u "title"), (VS (SStr (u "Identifiers")))); ((u "description"), (VS (SStr (u "One or more official identifiers for this perrson. Where available, official registration numbers should be provided.")))); ((u "type"), (VS (SStr (u "array")))); ((u "items"), (VO (Some [((u "$ref"), (VS (SStr (u "components.json#/definitions/Identifier"))))]) [((u "title"), (VS (SStr (u "Identifier")))); ((u "description"), (VS (SStr (u "An identifier that has been assigned to this entity. The scheme or list from which the identifier is drawn should be declared.")))); ((u "type"), (VS (SStr (u "object")))); ((u "properties"), (VO None [((u "id"), (VO None [((u "title"), (VS (SStr (u "ID")))); ((u "description"), (VS (SStr (u "The identifier for this entity as provided in the declared scheme.")))); ((u "type"), (VS (SStr (u "string"))))])); ((u "scheme"), (VO None [((u "title"), (VS (SStr (u "Scheme")))); ((u "description"), (VS (SStr (u "For entity statements, the scheme should be a entry from the [org-id.guide](http://www.org-id.guide) codelist. For person statements, recognised values include 'passport', 'internal' and 'id-card'.")))); ((u "type"), (VS (SStr (u "string"))))])); ((u "schemeName"), (VO None [((u "title"), (VS (SStr (u "Scheme name")))); ((u "Description"), (VS (SStr (u "The name of this scheme, where the org-id code is unknown or only an unvalidated string is provided.")))); ((u "type"), (VS (SStr (u "string"))))])); ((u "uri"), (VO None [((u "title"), (VS (SStr (u "URI")))); ((u "description"), (VS (SStr (u "Where this identifier has a [canonical URI](https://en.wikipedia.org/wiki/Uniform_Resource_Identifier) this may be included")))); ((u "type"), (VS (SStr (u "string")))); ((u "format"), (VS (SStr (u "uri"))))]))])); ((u "anyOf"), (VA [(VO None [((u "required"), (VA [(VS (SStr (u "scheme")))]))]); (VO None [((u "required"), (VA [(VS (SStr (u "schemeName")))]))]); (VO None [((u "required"), (VA [(VS (SStr (u "scheme"))); (VS (SStr (u "schemeName")))]))])]))])); ((u "propertyOrder"), (VS (SInt (20))))])); ((u "nationalities"), (VO None [((u "title"), (VS (SStr (u "Nationality")))); ((u "description"), (VS (SStr (u "An array of ISO 2-Digit country codes representing nationalities held by this individual.")))); ((u "type"), (VS (SStr (u "array")))); ((u "items"), (VO (Some [((u "$ref"), (VS (SStr (u "components.json#/definitions/Country"))))]) [((u "title"), (VS (SStr (u "Country")))); ((u "description"), (VS (SStr (u "A country MUST have a name. A country SHOULD have an ISO 2-Digit county code.")))); ((u "type"), (VS (SStr (u "object")))); ((u "properties"), (VO None [((u "name"), (VO None [((u "title"), (VS (SStr (u "Name")))); ((u "description"), (VS (SStr (u "The name of the country")))); ((u "type"), (VS (SStr (u "string"))))])); ((u "code"), (VO None [((u "title"), (VS (SStr (u "Country code")))); ((u "description"), (VS (SStr (u "The ISO 2-digit code for the country.")))); ((u "type"), (VS (SStr (u "string")))); ((u "maxLength"), (VS (SInt (2)))); ((u "minLength"), (VS (SInt (2))))]))]))])); ((u "propertyOrder"), (VS (SInt (30))))])); ((u "placeOfBirth"), (VO (Some [((u "title"), (VS (SStr (u "Place of birth")))); ((u "$ref"), (VS (SStr (u "components.json#/definitions/Address")))); ((u "propertyOrder"), (VS (SInt (40))))]) [((u "title"), (VS (SStr (u "Address")))); ((u "description"), (VS (SStr (u "A free text address string, providing as much address data as is relevant, suitable for processing using address parsing algorithms. For some uses (for example, Place of Birth) only a town and country are required.")))); ((u "type"), (VS (SStr (u "object")))); ((u "properties"), (VO None [((u "type"), (VO None [((u "title"), (VS (SStr (u "Type")))); ((u "description"), (VS (SStr (u "What type of address is this?")))); ((u "type"), (VS (SStr (u "string")))); ((u "enum"), (VA [(VS (SStr (u "placeOfBirth"))); (VS (SStr (u "home"))); (VS (SStr (u "residence"))); (VS (SStr (u "registered"))); (VS (SStr (u "service"))); (VS (SStr (u "alternative")))])); ((u "codelist"), (VS (SStr (u "addressType.csv")))); ((u "openCodelist"), (VS (SBool false)))])); ((u "address"), (VO None [((u "title"), (VS (SStr (u "Address")))); ((u "description"), (VS (SStr (u "The address, with each line or component of the address separated by a line-break or comma. This field may also include the postal code. ")))); ((u "type"), (VS (SStr (u "string"))))])); ((u "postCode"), (VO None [((u "title"), (VS (SStr (u "Postcode")))); ((u "description"), (VS (SStr (u "The postal code for this address.")))); ((u "type"), (VS (SStr (u "string"))))])); ((u "country"), (VO None [((u "title"), (VS (SStr (u "Country")))); ((u "description"), (VS (SStr (u "The ISO 2-Digit county code for this address.")))); ((u "type"), (VS (SStr (u "string")))); ((u "minLength"), (VS (SInt (2)))); ((u "maxLength"), (VS (SInt (2))))]))]))])); ((u "birthDate"), (VO None [((u "title"), (VS (SStr (u "Date of birth")))); ((u "description"), (VS (SStr (u "The date of birth for this individual. Please provide as precise a date as possible in ISO 8601 format. When only the year or year and month is known, these can be given as YYYY or YYYY-MM.")))); ((u "type"), (VS (SStr (u "string")))); ((u "pattern"), (VS (SStr ([94; 40; 91; 92; 43; 45; 93; 63; 92; 100; 123; 52; 125; 40; 63; 33; 92; 100; 123; 50; 125; 8; 41; 41; 40; 40; 45; 63; 41; 40; 40; 48; 91; 49; 45; 57; 93; 124; 49; 91; 48; 45; 50; 93; 41; 40; 92; 51; 40; 91; 49; 50; 93; 92; 100; 124; 48; 91; 49; 45; 57; 93; 124; 51; 91; 48; 49; 93; 41; 41; 63; 124; 87; 40; 91; 48; 45; 52; 93; 92; 100; 124; 53; 91; 48; 45; 50; 93; 41; 40; 45; 63; 91; 49; 45; 55; 93; 41; 63; 124; 40; 48; 48; 91; 49; 45; 57; 93; 124; 48; 91; 49; 45; 57; 93; 92; 100; 124; 91; 49; 50; 93; 92; 100; 123; 50; 125; 124; 51; 40; 91; 48; 45; 53; 93; 92; 100; 124; 54; 91; 49; 45; 54; 93; 41; 41; 41; 40; 91; 84; 92; 115; 93; 40; 40; 40; 91; 48; 49; 93; 92; 100; 124; 50; 91; 48; 45; 51; 93; 41; 40; 40; 58; 63; 41; 91; 48; 45; 53; 93; 92; 100; 41; 63; 124; 50; 52; 92; 58; 63; 48; 48; 41; 40; 91; 92; 46; 44; 93; 92; 100; 43; 40; 63; 33; 58; 41; 41; 63; 41; 63; 40; 92; 49; 55; 91; 48; 45; 53; 93; 92; 100; 40; 91; 92; 46; 44; 93; 92; 100; 43; 41; 63; 41; 63; 40; 91; 122; 90; 93; 124; 40; 91; 92; 43; 45; 93; 41; 40; 91; 48; 49; 93; 92; 100; 124; 50; 91; 48; 45; 51; 93; 41; 58; 63; 40; 91; 48; 45; 53; 93; 92; 100; 41; 63; 41; 63; 41; 63; 41; 63; 36]%N)))); ((u "propertyOrder"), (VS (SInt (35))))])); ((u "deathDate"), (VO None [((u "title"), (VS (SStr (u "Death date")))); ((u "description"), (VS (SStr (u "If this individual is no longer alive, provide their date of death. Please provide as precise a date as possible in ISO 8601 format. When only the year or year and month is known, these can be given as YYYY or YYYY-MM.")))); ((u "type"), (VS (SStr (u "string")))); ((u "pattern"), (VS (SStr ([94; 40; 91; 92; 43; 45; 93; 63; 92; 100; 123; 52; 125; 40; 63; 33; 92; 100; 123; 50; 125; 8; 41; 41; 40; 40; 45; 63; 41; 40; 40; 48; 91; 49; 45; 57; 93; 124; 49; 91; 48; 45; 50; 93; 41; 40; 92; 51; 40; 91; 49; 50; 93; 92; 100; 124; 48; 91; 49; 45; 57; 93; 124; 51; 91; 48; 49; 93; 41; 41; 63; 124; 87; 40; 91; 48; 45; 52; 93; 92; 100; 124; 53; 91; 48; 45; 50; 93; 41; 40; 45; 63; 91; 49; 45; 55; 93; 41; 63; 124; 40; 48; 48; 91; 49; 45; 57; 93; 124; 48; 91; 49; 45; 57; 93; 92; 100; 124; 91; 49; 50; 93; 92; 100; 123; 50; 125; 124; 51; 40; 91; 48; 45; 53; 93; 92; 100; 124; 54; 91; 49; 45; 54; 93; 41; 41; 41; 40; 91; 84; 92; 115; 93; 40; 40; 40; 91; 48; 49; 93; 92; 100; 124; 50; 91; 48; 45; 51; 93; 41; 40; 40; 58; 63; 41; 91; 48; 45; 53; 93; 92; 100; 41; 63; 124; 50; 52; 92; 58; 63; 48; 48; 41; 40; 91; 92; 46; 44; 93; 92; 100; 43; 40; 63; 33; 58; 41; 41; 63; 41; 63; 40; 92; 49; 55; 91; 48; 45; 53; 93; 92; 100; 40; 91; 92; 46; 44; 93; 92; 100; 43; 41; 63; 41; 63; 40; 91; 122; 90; 93; 124; 40; 91; 92; 43; 45; 93; 41; 40; 91; 48; 49; 93; 92; 100; 124; 50; 91; 48; 45; 51; 93; 41; 58; 63; 40; 91; 48; 45; 53; 93; 92; 100; 41; 63; 41; 63; 41; 63; 41; 63; 36]%N)))); ((u "propertyOrder"), (VS (SInt (36))))])); ((u "placeOfResidence"), (VO (Some [((u "title"), (VS (SStr (u "Place of residence")))); ((u "$ref"), (VS (SStr (u "components.json#/definitions/Address")))); ((u "propertyOrder"), (VS (SInt (50))))]) [((u "title"), (VS (SStr (u "Address")))); ((u "description"), (VS (SStr (u "A free text address string, providing as much address data as is relevant, suitable for processing using address parsing algorithms. For some uses (for example, Place of Birth) only a town and country are required.")))); ((u "type"), (VS (SStr (u "object")))); ((u "properties"), (VO None [((u "type"), (VO None [((u "title"), (VS (SStr (u "Type")))); ((u "description"), (VS (SStr (u "What type of address is this?")))); ((u "type"), (VS (SStr (u "string")))); ((u "enum"), (VA [(VS (SStr (u "placeOfBirth"))); (VS (SStr (u "home"))); (VS (SStr (u "residence"))); (VS (SStr (u "registered"))); (VS (SStr (u "service"))); (VS (SStr (u "alternative")))])); ((u "codelist"), (VS (SStr (u "addressType.csv")))); ((u "openCodelist"), (VS (SBool false)))])); ((u "address"), (VO None [((u "title"), (VS (SStr (u "Address")))); ((u "description"), (VS (SStr (u "The address, with each line or component of the address separated by a line-break or comma. This field may also include the postal code. ")))); ((u "type"), (VS (SStr (u "string"))))])); ((u "postCode"), (VO None [((u "title"), (VS (SStr (u "Postcode")))); ((u "description"), (VS (SStr (u "The postal code for this address.")))); ((u "type"), (VS (SStr (u "string"))))])); ((u "country"), (VO None [((u "title"), (VS (SStr (u "Country")))); ((u "description"), (VS (SStr (u "The ISO 2-Digit county code for this address.")))); ((u "type"), (VS (SStr (u "string")))); ((u "minLength"), (VS (SInt (2)))); ((u "maxLength"), (VS (SInt (2))))]))]))])); ((u "addresses"), (VO None [((u "title"), (VS (SStr (u "Addresses")))); ((u "description"), (VS (SStr (u "One or more addresses for this entity.")))); ((u "type"), (VS (SStr (u "array")))); ((u "items"), (VO (Some [((u "$ref"), (VS (SStr (u "components.json#/definitions/Address"))))]) [((u "title"), (VS (SStr (u "Address")))); ((u "description"), (VS (SStr (u "A free text address string, providing as much address data as is relevant, suitable for processing using address parsing algorithms. For some uses (for example, Place of Birth) only a town and country are required.")))); ((u "type"), (VS (SStr (u "object")))); ((u "properties"), (VO None [((u "type"), (VO None [((u "title"), (VS (SStr (u "Type")))); ((u "description"), (VS (SStr (u "What type of address is this?")))); ((u "type"), (VS (SStr (u "string")))); ((u "enum"), (VA [(VS (SStr (u "placeOfBirth"))); (VS (SStr (u "home"))); (VS (SStr (u "residence"))); (VS (SStr (u "registered"))); (VS (SStr (u "service"))); (VS (SStr (u "alternative")))])); ((u "codelist"), (VS (SStr (u "addressType.csv")))); ((u "openCodelist"), (VS (SBool false)))])); ((u "address"), (VO None [((u "title"), (VS (SStr (u "Address")))); ((u "description"), (VS (SStr (u "The address, with each line or component of the address separated by a line-break or comma. This field may also include the postal code. ")))); ((u "type"), (VS (SStr (u "string"))))])); ((u "postCode"), (VO None [((u "title"), (VS (SStr (u "Postcode")))); ((u "description"), (VS (SStr (u "The postal code for this address.")))); ((u "type"), (VS (SStr (u "string"))))])); ((u "country"), (VO None [((u "title"), (VS (SStr (u "Country")))); ((u "description"), (VS (SStr (u "The ISO 2-Digit county code for this address.")))); ((u "type"), (VS (SStr (u "string")))); ((u "minLength"), (VS (SInt (2)))); ((u "maxLength"), (VS (SInt (2))))]))]))])); ((u "propertyOrder"), (VS (SInt (60))))])); ((u "pepStatus"), (VO None [((u "title"), (VS (SStr (u "Politically Exposed Person Status")))); ((u "description"), (VS (SStr (u "One or more descriptions of this person's Politically-Exposed Person (PEP) status.")))); ((u "type"), (VS (SStr (u "array")))); ((u "items"), (VO (Some [((u "$ref"), (VS (SStr (u "components.json#/definitions/PepStatus"))))]) [((u "title"), (VS (SStr (u "PEP Status")))); ((u "description"), (VS (SStr (u "A description of a politically-exposed person status.")))); ((u "type"), (VS (SStr (u "object")))); ((u "properties"), (VO None [((u "reason"), (VO None [((u "title"), (VS (SStr (u "Reason")))); ((u "description"), (VS (SStr (u "The reason for this person being declared a politically-exposed person.")))); ((u "type"), (VS (SStr (u "string"))))])); ((u "jurisdiction"), (VO (Some [((u "$ref"), (VS (SStr (u "#/definitions/Jurisdiction"))))]) [((u "title"), (VS (SStr (u "Jurisdiction")))); ((u "description"), (VS (SStr (u "A jurisdiction MUST have a name. A jurisdiction SHOULD have an ISO ISO_3166-2 2-Digit country code, or ISO_3166-2 sub-division code.")))); ((u "type"), (VS (SStr (u "object")))); ((u "properties"), (VO None [((u "name"), (VO None [((u "title"), (VS (SStr (u "Name")))); ((u "description"), (VS (SStr (u "The name of the jurisdiction")))); ((u "type"), (VS (SStr (u "string"))))])); ((u "code"), (VO None [((u "title"), (VS (SStr (u "Country code")))); ((u "description"), (VS (SStr (u "The ISO_3166-2 2-Digit country code, or ISO_3166-2 sub-division code of the jurisdiction")))); ((u "type"), (VS (SStr (u "string")))); ((u "maxLength"), (VS (SInt (6)))); ((u "minLength"), (VS (SInt (2))))]))]))])); ((u "startDate"), (VO None [((u "title"), (VS (SStr (u "State date")))); ((u "description"), (VS (SStr (u "When did this PEP status begin. Please provide as precise a date as possible in ISO 8601 format. When only the year or year and month is known, these can be given as YYYY or YYYY-MM.")))); ((u "type"), (VS (SStr (u "string")))); ((u "pattern"), (VS (SStr ([94; 40; 91; 92; 43; 45; 93; 63; 92; 100; 123; 52; 125; 40; 63; 33; 92; 100; 123; 50; 125; 8; 41; 41; 40; 40; 45; 63; 41; 40; 40; 48; 91; 49; 45; 57; 93; 124; 49; 91; 48; 45; 50; 93; 41; 40; 92; 51; 40; 91; 49; 50; 93; 92; 100; 124; 48; 91; 49; 45; 57; 93; 124; 51; 91; 48; 49; 93; 41; 41; 63; 124; 87; 40; 91; 48; 45; 52; 93; 92; 100; 124; 53; 91; 48; 45; 50; 93; 41; 40; 45; 63; 91; 49; 45; 55; 93; 41; 63; 124; 40; 48; 48; 91; 49; 45; 57; 93; 124; 48; 91; 49; 45; 57; 93; 92; 100; 124; 91; 49; 50; 93; 92; 100; 123; 50; 125; 124; 51; 40; 91; 48; 45; 53; 93; 92; 100; 124; 54; 91; 49; 45; 54; 93; 41; 41; 41; 40; 91; 84; 92; 115; 93; 40; 40; 40; 91; 48; 49; 93; 92; 100; 124; 50; 91; 48; 45; 51; 93; 41; 40; 40; 58; 63; 41; 91; 48; 45; 53; 93; 92; 100; 41; 63; 124; 50; 52; 92; 58; 63; 48; 48; 41; 40; 91; 92; 46; 44; 93; 92; 100; 43; 40; 63; 33; 58; 41; 41; 63; 41; 63; 40; 92; 49; 55; 91; 48; 45; 53; 93; 92; 100; 40; 91; 92; 46; 44; 93; 92; 100; 43; 41; 63; 41; 63; 40; 91; 122; 90; 93; 124; 40; 91; 92; 43; 45; 93; 41; 40; 91; 48; 49; 93; 92; 100; 124; 50; 91; 48; 45; 51; 93; 41; 58; 63; 40; 91; 48; 45; 53; 93; 92; 100; 41; 63; 41; 63; 41; 63; 41; 63; 36]%N))))])); ((u "endDate"), (VO None [((u "title"), (VS (SStr (u "End date")))); ((u "description"), (VS (SStr (u "When did this PEP status end. Please provide as precise a date as possible in ISO 8601 format. When only the year or year and month is known, these can be given as YYYY or YYYY-MM.")))); ((u "type"), (VS (SStr (u "string")))); ((u "pattern"), (VS (SStr ([94; 40; 91; 92; 43; 45; 93; 63; 92; 100; 123; 52; 125; 40; 63; 33; 92; 100; 123; 50; 125; 8; 41; 41; 40; 40; 45; 63; 41; 40; 40; 48; 91; 49; 45; 57; 93; 124; 49; 91; 48; 45; 50; 93; 41; 40; 92; 51; 40; 91; 49; 50; 93; 92; 100; 124; 48; 91; 49; 45; 57; 93; 124; 51; 91; 48; 49; 93; 41; 41; 63; 124; 87; 40; 91; 48; 45; 52; 93; 92; 100; 124; 53; 91; 48; 45; 50; 93; 41; 40; 45; 63; 91; 49; 45; 55; 93; 41; 63; 124; 40; 48; 48; 91; 49; 45; 57; 93; 124; 48; 91; 49; 45; 57; 93; 92; 100; 124; 91; 49; 50; 93; 92; 100; 123; 50; 125; 124; 51; 40; 91; 48; 45; 53; 93; 92; 100; 124; 54; 91; 49; 45; 54; 93; 41; 41; 41; 40; 91; 84; 92; 115; 93; 40; 40; 40; 91; 48; 49; 93; 92; 100; 124; 50; 91; 48; 45; 51; 93; 41; 40; 40; 58; 63; 41; 91; 48; 45; 53; 93; 92; 100; 41; 63; 124; 50; 52; 92; 58; 63; 48; 48; 41; 40; 91; 92; 46; 44; 93; 92; 100; 43; 40; 63; 33; 58; 41; 41; 63; 41; 63; 40; 92; 49; 55; 91; 48; 45; 53; 93; 92; 100; 40; 91; 92; 46; 44; 93; 92; 100; 43; 41; 63; 41; 63; 40; 91; 122; 90; 93; 124; 40; 91; 92; 43; 45; 93; 41; 40; 91; 48; 49; 93; 92; 100; 124; 50; 91; 48; 45; 51; 93; 41; 58; 63; 40; 91; 48; 45; 53; 93; 92; 100; 41; 63; 41; 63; 41; 63; 41; 63; 36]%N))))]))]))])); ((u "propertyOrder"), (VS (SInt (80))))])); ((u "source"), (VO (Some [((u "title"), (VS (SStr (u "Source")))); ((u "description"), (VS (SStr (u "The source of the information that links the entity and the interested party, or that supports a null statement.")))); ((u "$ref"), (VS (SStr (u "components.json#/definitions/Source")))); ((u "propertyOrder"), (VS (SInt (89))))]) [((u "title"), (VS (SStr (u "Source")))); ((u "description"), (VS (SStr (u "The source object is used to explain where information in a statement originated from, and to link to supporting information.")))); ((u "type"), (VS (SStr (u "object")))); ((u "properties"), (VO None [((u "type"), (VO None [((u "title"), (VS (SStr (u "Source type")))); ((u "description"), (VS (SStr (u "What type of source is this? Multiple tags can be combined. Values should come from the [source type](#sourcetype) codelist.")))); ((u "type"), (VS (SStr (u "array")))); ((u "items"), (VO None [((u "type"), (VS (SStr (u "string")))); ((u "enum"), (VA [(VS (SStr (u "selfDeclaration"))); (VS (SStr (u "officialRegister"))); (VS (SStr (u "thirdParty"))); (VS (SStr (u "primaryResearch"))); (VS (SStr (u "verified")))])); ((u "codelist"), (VS (SStr (u "sourceType.csv")))); ((u "openCodelist"), (VS (SBool false)))]))])); ((u "description"), (VO None [((u "title"), (VS (SStr (u "Description")))); ((u "description"), (VS (SStr (u "Where required, additional free-text information about the source of this statement can be provided here.")))); ((u "type"), (VS (SStr (u "string"))))])); ((u "url"), (VO None [((u "title"), (VS (SStr (u "Source URL")))); ((u "description"), (VS (SStr (u "If this information was fetched from an external URL, or a machine or human readable web page is available that provides addition information on how this statement was sourced, provide the URL.")))); ((u "type"), (VS (SStr (u "string"))))])); ((u "retrievedAt"), (VO None [((u "title"), (VS (SStr (u "Retrieved at")))); ((u "description"), (VS (SStr (u "If this statement was imported from some external system, include a timestamp indicating when this took place. The statement's own date should be set based on the source information. ")))); ((u "type"), (VS (SStr (u "string")))); ((u "format"), (VS (SStr (u "datetime"))))])); ((u "assertedBy"), (VO None [((u "title"), (VS (SStr (u "Asserted by")))); ((u "description"), (VS (SStr (u "Who is making this statement? This may be the name of the person or organisation making a self-declaration (in which case, please make sure the name field matches the organisation or person name field), or the name or description of some other party. If this statement has been verified, this may also include the name of the organisation providing verification.")))); ((u "type"), (VS (SStr (u "array")))); ((u "items"), (VO (Some [((u "$ref"), (VS (SStr (u "#/definitions/Agent"))))]) [((u "type"), (VS (SStr (u "object")))); ((u "title"), (VS (SStr (u "Agent")))); ((u "description"), (VS (SStr (u "An individual, organisation or other responsible agent making, or supporting, a given statement or annotation.")))); ((u "properties"), (VO None [((u "name"), (VO None [((u "title"), (VS (SStr (u "Name")))); ((u "description"), (VS (SStr (u "The name of the agent")))); ((u "type"), (VS (SStr (u "string"))))])); ((u "uri"), (VO None [((u "title"), (VS (SStr (u "URI")))); ((u "description"), (VS (SStr (u "An optional URI to identify the agent.")))); ((u "type"), (VS (SStr (u "string")))); ((u "format"), (VS (SStr (u "uri"))))]))]))]))]))]))])); ((u "annotations"), (VO None [((u "title"), (VS (SStr (u "Annotations")))); ((u "description"), (VS (SStr (u "Annotations about this statement or parts of this statement")))); ((u "type"), (VS (SStr (u "array")))); ((u "items"), (VO (Some [((u "$ref"), (VS (SStr (u "components.json#/definitions/Annotation"))))]) [((u "title"), (VS (SStr (u "Annotation")))); ((u "description"), (VS (SStr (u "An annotation provides additional information about ownership or control data being provided. Annotations can be provided in free-text, and can apply to a whole statement, an object or a single field. Additional extended properties can be included on the annotation object to provide structured data where required.")))); ((u "type"), (VS (SStr (u "object")))); ((u "properties"), (VO None [((u "statementPointerTarget"), (VO None [((u "title"), (VS (SStr (u "Statement Fragment Pointer")))); ((u "description"), (VS (SStr (u "An [RFC6901 JSON Pointer](https://tools.ietf.org/html/rfc6901) describing the target fragment of the statement that this annotation applies to, starting from the root of the statement. A value of '/' indicates that the annotation applies to the whole statement.")))); ((u "type"), (VS (SStr (u "string"))))])); ((u "creationDate"), (VO None [((u "title"), (VS (SStr (u "Creation Date")))); ((u "description"), (VS (SStr (u "The date this annotation was created.")))); ((u "type"), (VS (SStr (u "string")))); ((u "format"), (VS (SStr (u "date"))))])); ((u "createdBy"), (VO None [((u "title"), (VS (SStr (u "Created By")))); ((u "description"), (VS (SStr (u "The person, organisation or agent that created this annotation.")))); ((u "type"), (VS (SStr (u "object")))); ((u "properties"), (VO None [((u "name"), (VO None [((u "title"), (VS (SStr (u "Name")))); ((u "description"), (VS (SStr (u "The name of the person, organisation or agent that created this annotation.")))); ((u "type"), (VS (SStr (u "string"))))])); ((u "uri"), (VO None [((u "title"), (VS (SStr (u "URI")))); ((u "description"), (VS (SStr (u "An optional URI to identify person, organisation or agent that created this annotation.")))); ((u "type"), (VS (SStr (u "string")))); ((u "format"), (VS (SStr (u "uri"))))]))]))])); ((u "motivation"), (VO None [((u "title"), (VS (SStr (u "Motivation")))); ((u "description"), (VS (SStr (u "The motivation for this annotation, chosen from a codelist. See the [annotationMotivation](#annotationmotivation) codelist.")))); ((u "type"), (VS (SStr (u "string")))); ((u "enum"), (VA [(VS (SStr (u "commenting"))); (VS (SStr (u "correcting"))); (VS (SStr (u "identifying"))); (VS (SStr (u "linking"))); (VS (SStr (u "transformation")))])); ((u "codelist"), (VS (SStr (u "annotationMotivation.csv")))); ((u "openCodelist"), (VS (SBool true)))])); ((u "description"), (VO None [((u "title"), (VS (SStr (u "Description")))); ((u "description"), (VS (SStr (u "A free-text description to annotate this statement or field.")))); ((u "type"), (VS (SStr (u "string"))))])); ((u "transformedContent"), (VO None [((u "type"), (VS (SStr (u "string")))); ((u "title"), (VS (SStr (u "Transformed content")))); ((u "description"), (VS (SStr (u "A representation of the annotation target after the transformation in the description field has been applied. This field SHOULD only be used when the motivation is transformation."))))])); ((u "url"), (VO None [((u "title"), (VS (SStr (u "URL")))); ((u "description"), (VS (SStr (u "A linked resource that annotates, provides context for or enhances this statement. The content of the resource, or the relationship to the statement, MAY be described in the description field.")))); ((u "type"), (VS (SStr (u "string")))); ((u "format"), (VS (SStr (u "uri"))))]))])); ((u "anyOf"), (VA [(VO None [((u "properties"), (VO None [((u "motivation"), (VO None [((u "enum"), (VA [(VS (SStr (u "linking")))]))]))])); ((u "required"), (VA [(VS (SStr (u "statementPointerTarget"))); (VS (SStr (u "motivation")))]))]); (VO None [((u "properties"), (VO None [((u "motivation"), (VO None [((u "enum"), (VA [(VS (SStr (u "linking"))); (VS (SStr (u "identifying"))); (VS (SStr (u "commenting"))); (VS (SStr (u "correcting"))); (VS (SStr (u "transformation")))]))]))])); ((u "required"), (VA [(VS (SStr (u "statementPointerTarget"))); (VS (SStr (u "motivation")))]))])]))])); ((u "propertyOrder"), (VS (SInt (90))))])); ((u "replacesStatements"), (VO (Some [((u "$ref"), (VS (SStr (u "components.json#/definitions/ReplacesStatements"))))]) [((u "title"), (VS (SStr (u "Replaces statement(s)")))); ((u "description"), (VS (SStr (u "If this statement replaces a previous statement or statements, provide the identifier(s) for the previous statement(s) here. Consuming applications are advised to mark the identified statements as no longer active.")))); ((u "type"), (VS (SStr (u "array")))); ((u "items"), (VO None [((u "title"), (VS (SStr (u "Statement identifier")))); ((u "description"), (VS (SStr (u "The identifier of a statement that is no longer active.")))); ((u "type"), (VS (SStr (u "string")))); ((u "minLength"), (VS (SInt (32)))); ((u "maxLength"), (VS (SInt (64))))]))]))])); ((u "required"), (VA [(VS (SStr (u "statementID"))); (VS (SStr (u "statementType")))])); ((u "dependencies"), (VO None [((u "missingPersonReason"), (VA [(VS (SStr (u "missingPersonType")))]))]))]); (VO (Some [((u "$ref"), (VS (SStr (u "ownership-or-control-statement.json"))))]) [((u "id"), (VS (SStr (u "ownership-or-control-statement.json")))); ((u "$schema"), (VS (SStr (u "http://json-schema.org/draft-04/schema#")))); ((u "version"), (VS (SStr (u "0.2-beta")))); ((u "title"), (VS (SStr (u "Ownership or control Statement")))); ((u "description"), (VS (SStr (u "An ownership or control statement is made up of an entity, an interested party (a reference to an entity, natural person, arrangement or trust), details of the interest and provenance information for the statement.")))); ((u "type"), (VS (SStr (u "object")))); ((u "properties"), (VO None [((u "statementID"), (VO (Some [((u "$ref"), (VS (SStr (u "components.json#/definitions/ID"))))]) [((u "title"), (VS (SStr (u "Statement Identifier")))); ((u "description"), (VS (SStr (u "A persistent globally unique identifier for this statement.")))); ((u "type"), (VS (SStr (u "string")))); ((u "minLength"), (VS (SInt (32)))); ((u "maxLenth"), (VS (SInt (64))))])); ((u "statementType"), (VO None [((u "title"), (VS (SStr (u "Statement type")))); ((u "description"), (VS (SStr (u "This should always be set to `ownershipOrControlStatement`.")))); ((u "type"), (VS (SStr (u "string")))); ((u "enum"), (VA [(VS (SStr (u "ownershipOrControlStatement")))]))])); ((u "statementDate"), (VO (Some [((u "$ref"), (VS (SStr (u "components.json#/definitions/StatementDate"))))]) [((u "title"), (VS (SStr (u "Statement date")))); ((u "description"), (VS (SStr (u "The date on which this statement was made.")))); ((u "type"), (VS (SStr (u "string")))); ((u "format"), (VS (SStr (u "date"))))])); ((u "subject"), (VO None [((u "title"), (VS (SStr (u "Subject")))); ((u "description"), (VS (SStr (u "The subject of an ownership or control relationship.")))); ((u "type"), (VS (SStr (u "object")))); ((u "properties"), (VO None [((u "describedByEntityStatement"), (VO None [((u "title"), (VS (SStr (u "Described by entity statement")))); ((u "description"), (VS (SStr (u "Provide the identifier of the statement which describes the entity that the subject of an ownership or control interest.")))); ((u "type"), (VS (SStr (u "string"))))]))])); ((u "required"), (VA [(VS (SStr (u "describedByEntityStatement")))]))])); ((u "interestedParty"), (VO (Some [((u "$ref"), (VS (SStr (u "#/definitions/InterestedParty"))))]) [((u "title"), (VS (SStr (u "Interested party")))); ((u "description"), (VS (SStr (u "The interested party has some level of ownership or control over the entity referenced in this ownership or control statement. This should be described with reference to either an entity statement or person statement, or, where the interested party is unknown, details of why. ")))); ((u "type"), (VS (SStr (u "object")))); ((u "properties"), (VO None [((u "describedByEntityStatement"), (VO None [((u "title"), (VS (SStr (u "Described by entity statement")))); ((u "description"), (VS (SStr (u "A reference to a statement describing a registered entity, trust or arrangement that has an ownership or control interest in the subject of this statement. An entityStatement should be used when the direct interests to be described represents known control or ownership by anyone other than a natural person.")))); ((u "type"), (VS (SStr (u "string"))))])); ((u "describedByPersonStatement"), (VO None [((u "title"), (VS (SStr (u "Described by person statement")))); ((u "description"), (VS (SStr (u "A reference to a statement describing a natural person who has an ownership or control interest in the subject of this statement.")))); ((u "type"), (VS (SStr (u "string"))))])); ((u "unspecified"), (VO None [((u "title"), (VS (SStr (u "Unspecified or unknown ownership and control")))); ((u "description"), (VS (SStr (u "When confirmation has been provided that no interested party exists, where ownership and control information does not need to be provided, or where details of ownership and control are unknown, information explaining this should be given using the unspecified reason and description. Where there is a natural person with ownership or control, but their name or details are not known, or cannot be disclosed for some reason, unspecified should not be used, but instead a reference to a personStatement should be provided but identifying details of the person left blank.")))); ((u "type"), (VS (SStr (u "object")))); ((u "properties"), (VO None [((u "reason"), (VO None [((u "title"), (VS (SStr (u "Reason")))); ((u "description"), (VS (SStr ([84; 104; 101; 32; 114; 101; 97; 115; 111; 110; 32; 116; 104; 97; 116; 32; 97; 110; 32; 105; 110; 116; 101; 114; 101; 115; 116; 101; 100; 32; 112; 97; 114; 116; 121; 32; 99; 97; 110; 110; 111; 116; 32; 98; 101; 32; 115; 112; 101; 99; 105; 102; 105; 101; 100; 46; 32; 70; 114; 111; 109; 32; 116; 104; 101; 32; 91; 117; 110; 115; 112; 101; 99; 105; 102; 105; 101; 100; 82; 101; 97; 115; 111; 110; 32; 99; 111; 100; 101; 108; 105; 115; 116; 93; 40; 35; 117; 110; 115; 112; 101; 99; 105; 102; 105; 101; 100; 114; 101; 97; 115; 111; 110; 41; 46]%N)))); ((u "type"), (VS (SStr (u "string")))); ((u "enum"), (VA [(VS (SStr (u "no-beneficial-owners"))); (VS (SStr (u "subject-unable-to-confirm-or-identify-beneficial-owner"))); (VS (SStr (u "interested-party-has-not-provided-information"))); (VS (SStr (u "subject-exempt-from-disclosure"))); (VS (SStr (u "interested-party-exempt-from-disclosure"))); (VS (SStr (u "unknown")))])); ((u "codelist"), (VS (SStr (u "unspecifiedReason.csv")))); ((u "openCodelist"), (VS (SBool false)))])); ((u "description"), (VO None [((u "title"), (VS (SStr (u "Description")))); ((u "description"), (VS (SStr (u "Any supporting information about the absence of a confirmed beneficial owner. This field may be used to provide set phrases from a source system, or for a free-text explanation.")))); ((u "type"), (VS (SStr (u "string"))))]))])); ((u "required"), (VA [(VS (SStr (u "reason")))]))]))]))])); ((u "interests"), (VO None [((u "title"), (VS (SStr (u "Interests")))); ((u "description"), (VS (SStr (u "A description of the interests held by the interestedParty covered by this statement in the entity covered by this statement.")))); ((u "type"), (VS (SStr (u "array")))); ((u "items"), (VO (Some [((u "$ref"), (VS (SStr (u "components.json#/definitions/Interest"))))]) [((u "title"), (VS (SStr (u "Interest")))); ((u "description"), (VS (SStr (u "A description of the interest held by an interestedParty in another entity.")))); ((u "type"), (VS (SStr (u "object")))); ((u "properties"), (VO None [((u "type"), (VO None [((u "title"), (VS (SStr (u "Type of interest")))); ((u "description"), (VS (SStr (u "A codelist value indicating the nature of the interest. See the [interestType codelist](#interesttype)")))); ((u "type"), (VS (SStr (u "string")))); ((u "enum"), (VA [(VS (SStr (u "shareholding"))); (VS (SStr (u "voting-rights"))); (VS (SStr (u "appointment-of-board"))); (VS (SStr (u "influence-or-control"))); (VS (SStr (u "senior-managing-official"))); (VS (SStr (u "settlor-of-trust"))); (VS (SStr (u "trustee-of-trust"))); (VS (SStr (u "protector-of-trust"))); (VS (SStr (u "beneficiary-of-trust"))); (VS (SStr (u "other-influence-or-control-of-trust"))); (VS (SStr (u "rights-to-surplus-assets"))); (VS (SStr (u "rights-to-profit-or-income")))])); ((u "codelist"), (VS (SStr (u "interestType.csv")))); ((u "openCodelist"), (VS (SBool false)))])); ((u "interestLevel"), (VO None [((u "title"), (VS (SStr (u "Interest level")))); ((u "description"), (VS (SStr (u "Is this interest held directly or indirectly?")))); ((u "type"), (VS (SStr (u "string")))); ((u "enum"), (VA [(VS (SStr (u "direct"))); (VS (SStr (u "indirect"))); (VS (SStr (u "unknown")))])); ((u "codelist"), (VS (SStr (u "interestLevel.csv")))); ((u "openCodelist"), (VS (SBool false)))])); ((u "beneficialOwnershipOrControl"), (VO None [((u "title"), (VS (SStr (u "Beneficial ownership or control")))); ((u "description"), (VS (SStr (u "Does this statement assert this as a beneficial ownership or control interest? A beneficial ownership or control interest is always between a natural person and some entity, and exists where the person ultimately benefits from, or has a degree of control over, the entity. There may be cases where a person has an interest in an entity, but where there are arrangements or other conditions that mean this interest does not constitute beneficial ownership or control.")))); ((u "type"), (VS (SStr (u "boolean"))))])); ((u "details"), (VO None [((u "title"), (VS (SStr (u "Details")))); ((u "description"), (VS (SStr (u "This field may be used to provide the local name given to this kind of interest, or any further semi-structured or unstructured information to clarify the nature of the interest held.")))); ((u "type"), (VS (SStr (u "string"))))])); ((u "share"), (VO None [((u "title"), (VS (SStr (u "Percentage share")))); ((u "description"), (VS (SStr (u "Where an exact percentage is available, this should be given, and maximum and minimum values set to the same as the exact percentage. Otherwise, maximum and minimum can be used to record the range into which the share of this kind of interest falls.")))); ((u "type"), (VS (SStr (u "object")))); ((u "properties"), (VO None [((u "exact"), (VO None [((u "title"), (VS (SStr (u "Exact share")))); ((u "description"), (VS (SStr (u "The exact share of this interest held (where available).")))); ((u "type"), (VS (SStr (u "number")))); ((u "maximum"), (VS (SInt (100)))); ((u "minimum"), (VS (SInt (0))))])); ((u "maximum"), (VO None [((u "title"), (VS (SStr (u "Maximum share")))); ((u "description"), (VS (SStr (u "The upper bound of the share of this interest known to be held.")))); ((u "type"), (VS (SStr (u "number")))); ((u "maximum"), (VS (SInt (100)))); ((u "minimum"), (VS (SInt (0))))])); ((u "minimum"), (VO None [((u "title"), (VS (SStr (u "Minimum share")))); ((u "description"), (VS (SStr (u "The lower bound of the share of this interest known to be held.")))); ((u "type"), (VS (SStr (u "number")))); ((u "maximum"), (VS (SInt (100)))); ((u "minimum"), (VS (SInt (0))))])); ((u "exclusiveMinimum"), (VO None [((u "title"), (VS (SStr (u "Exclusive minimum")))); ((u "description"), (VS (SStr (u "If exclusiveMinimum is true, then the share is at least greater than the minimum value given. E.g. if minimum is 25, the share is at least 25.1, and not simply 25.")))); ((u "type"), (VS (SStr (u "boolean")))); ((u "default"), (VS (SBool false)))])); ((u "exclusiveMaximum"), (VO None [((u "title"), (VS (SStr (u "Exclusive maximum")))); ((u "description"), (VS (SStr (u "If exclusiveMaximum is true, then the share is at least less than the maximum value given. E.g. if maximum is 50, the share is less than 49.999, and not simply 50.")))); ((u "type"), (VS (SStr (u "boolean")))); ((u "default"), (VS (SBool true)))]))]))])); ((u "startDate"), (VO None [((u "title"), (VS (SStr (u "State date")))); ((u "description"), (VS (SStr (u "When did this interest first occur. Please provide as precise a date as possible in ISO 8601 format. When only the year or year and month is known, these can be given as YYYY or YYYY-MM.")))); ((u "type"), (VS (SStr (u "string")))); ((u "pattern"), (VS (SStr ([94; 40; 91; 92; 43; 45; 93; 63; 92; 100; 123; 52; 125; 40; 63; 33; 92; 100; 123; 50; 125; 8; 41; 41; 40; 40; 45; 63; 41; 40; 40; 48; 91; 49; 45; 57; 93; 124; 49; 91; 48; 45; 50; 93; 41; 40; 92; 51; 40; 91; 49; 50; 93; 92; 100; 124; 48; 91; 49; 45; 57; 93; 124; 51; 91; 48; 49; 93; 41; 41; 63; 124; 87; 40; 91; 48; 45; 52; 93; 92; 100; 124; 53; 91; 48; 45; 50; 93; 41; 40; 45; 63; 91; 49; 45; 55; 93; 41; 63; 124; 40; 48; 48; 91; 49; 45; 57; 93; 124; 48; 91; 49; 45; 57; 93; 92; 100; 124; 91; 49; 50; 93; 92; 100; 123; 50; 125; 124; 51; 40; 91; 48; 45; 53; 93; 92; 100; 124; 54; 91; 49; 45; 54; 93; 41; 41; 41; 40; 91; 84; 92; 115; 93; 40; 40; 40; 91; 48; 49; 93; 92; 100; 124; 50; 91; 48; 45; 51; 93; 41; 40; 40; 58; 63; 41; 91; 48; 45; 53; 93; 92; 100; 41; 63; 124; 50; 52; 92; 58; 63; 48; 48; 41; 40; 91; 92; 46; 44; 93; 92; 100; 43; 40; 63; 33; 58; 41; 41; 63; 41; 63; 40; 92; 49; 55; 91; 48; 45; 53; 93; 92; 100; 40; 91; 92; 46; 44; 93; 92; 100; 43; 41; 63; 41; 63; 40; 91; 122; 90; 93; 124; 40; 91; 92; 43; 45; 93; 41; 40; 91; 48; 49; 93; 92; 100; 124; 50; 91; 48; 45; 51; 93; 41; 58; 63; 40; 91; 48; 45; 53; 93; 92; 100; 41; 63; 41; 63; 41; 63; 41; 63; 36]%N))))])); ((u "endDate"), (VO None [((u "title"), (VS (SStr (u "End date")))); ((u "description"), (VS (SStr (u "When did this interest cease. Please provide as precise a date as possible in ISO 8601 format. When only the year or year and month is known, these can be given as YYYY or YYYY-MM.")))); ((u "type"), (VS (SStr (u "string")))); ((u "pattern"), (VS (SStr ([94; 40; 91; 92; 43; 45; 93; 63; 92; 100; 123; 52; 125; 40; 63; 33; 92; 100; 123; 50; 125; 8; 41; 41; 40; 40; 45; 63; 41; 40; 40; 48; 91; 49; 45; 57; 93; 124; 49; 91; 48; 45; 50; 93; 41; 40; 92; 51; 40; 91; 49; 50; 93; 92; 100; 124; 48; 91; 49; 45; 57; 93; 124; 51; 91; 48; 49; 93; 41; 41; 63; 124; 87; 40; 91; 48; 45; 52; 93; 92; 100; 124; 53; 91; 48; 45; 50; 93; 41; 40; 45; 63; 91; 49; 45; 55; 93; 41; 63; 124; 40; 48; 48; 91; 49; 45; 57; 93; 124; 48; 91; 49; 45; 57; 93; 92; 100; 124; 91; 49; 50; 93; 92; 100; 123; 50; 125; 124; 51; 40; 91; 48; 45; 53; 93; 92; 100; 124; 54; 91; 49; 45; 54; 93; 41; 41; 41; 40; 91; 84; 92; 115; 93; 40; 40; 40; 91; 48; 49; 93; 92; 100; 124; 50; 91; 48; 45; 51; 93; 41; 40; 40; 58; 63; 41; 91; 48; 45; 53; 93; 92; 100; 41; 63; 124; 50; 52; 92; 58; 63; 48; 48; 41; 40; 91; 92; 46; 44; 93; 92; 100; 43; 40; 63; 33; 58; 41; 41; 63; 41; 63; 40; 92; 49; 55; 91; 48; 45; 53; 93; 92; 100; 40; 91; 92; 46; 44; 93; 92; 100; 43; 41; 63; 41; 63; 40; 91; 122; 90; 93; 124; 40; 91; 92; 43; 45; 93; 41; 40; 91; 48; 49; 93; 92; 100; 124; 50; 91; 48; 45; 51; 93; 41; 58; 63; 40; 91; 48; 45; 53; 93; 92; 100; 41; 63; 41; 63; 41; 63; 41; 63; 36]%N))))]))]))]))])); ((u "source"), (VO (Some [((u "title"), (VS (SStr (u "Source")))); ((u "description"), (VS (SStr (u "The source of the information that links the entity and the interested party, or that supports a null statement.")))); ((u "$ref"), (VS (SStr (u "components.json#/definitions/Source"))))]) [((u "title"), (VS (SStr (u "Source")))); ((u "description"), (VS (SStr (u "The source object is used to explain where information in a statement originated from, and to link to supporting information.")))); ((u "type"), (VS (SStr (u "object")))); ((u "properties"), (VO None [((u "type"), (VO None [((u "title"), (VS (SStr (u "Source type")))); ((u "description"), (VS (SStr (u "What type of source is this? Multiple tags can be combined. Values should come from the [source type](#sourcetype) codelist.")))); ((u "type"), (VS (SStr (u "array")))); ((u "items"), (VO None [((u "type"), (VS (SStr (u "string")))); ((u "enum"), (VA [(VS (SStr (u "selfDeclaration"))); (VS (SStr (u "officialRegister"))); (VS (SStr (u "thirdParty"))); (VS (SStr (u "primaryResearch"))); (VS (SStr (u "verified")))])); ((u "codelist"), (VS (SStr (u "sourceType.csv")))); ((u "openCodelist"), (VS (SBool false)))]))])); ((u "description"), (VO None [((u "title"), (VS (SStr (u "Description")))); ((u "description"), (VS (SStr (u "Where required, additional free-text information about the source of this statement can be provided here.")))); ((u "type"), (VS (SStr (u "string"))))])); ((u "url"), (VO None [((u "title"), (VS (SStr (u "Source URL")))); ((u "description"), (VS (SStr (u "If this information was fetched from an external URL, or a machine or human readable web page is available that provides addition information on how this statement was sourced, provide the URL.")))); ((u "type"), (VS (SStr (u "string"))))])); ((u "retrievedAt"), (VO None [((u "title"), (VS (SStr (u "Retrieved at")))); ((u "description"), (VS (SStr (u "If this statement was imported from some external system, include a timestamp indicating when this took place. The statement's own date should be set based on the source information. ")))); ((u "type"), (VS (SStr (u "string")))); ((u "format"), (VS (SStr (u "datetime"))))])); ((u "assertedBy"), (VO None [((u "title"), (VS (SStr (u "Asserted by")))); ((u "description"), (VS (SStr (u "Who is making this statement? This may be the name of the person or organisation making a self-declaration (in which case, please make sure the name field matches the organisation or person name field), or the name or description of some other party. If this statement has been verified, this may also include the name of the organisation providing verification.")))); ((u "type"), (VS (SStr (u "array")))); ((u "items"), (VO (Some [((u "$ref"), (VS (SStr (u "#/definitions/Agent"))))]) [((u "type"), (VS (SStr (u "object")))); ((u "title"), (VS (SStr (u "Agent")))); ((u "description"), (VS (SStr (u "An individual, organisation or other responsible agent making, or supporting, a given statement or annotation.")))); ((u "properties"), (VO None [((u "name"), (VO None [((u "title"), (VS (SStr (u "Name")))); ((u "description"), (VS (SStr (u "The name of the agent")))); ((u "type"), (VS (SStr (u "string"))))])); ((u "uri"), (VO None [((u "title"), (VS (SStr (u "URI")))); ((u "description"), (VS (SStr (u "An optional URI to identify the agent.")))); ((u "type"), (VS (SStr (u "string")))); ((u "format"), (VS (SStr (u "uri"))))]))]))]))]))]))])); ((u "annotations"), (VO None [((u "title"), (VS (SStr (u "Annotations")))); ((u "description"), (VS (SStr (u "Annotations about this statement or parts of this statement")))); ((u "type"), (VS (SStr (u "array")))); ((u "items"), (VO (Some [((u "$ref"), (VS (SStr (u "components.json#/definitions/Annotation"))))]) [((u "title"), (VS (SStr (u "Annotation")))); ((u "description"), (VS (SStr (u "An annotation provides additional information about ownership or control data being provided. Annotations can be provided in free-text, and can apply to a whole statement, an object or a single field. Additional extended properties can be included on the annotation object to provide structured data where required.")))); ((u "type"), (VS (SStr (u "object")))); ((u "properties"), (VO None [((u "statementPointerTarget"), (VO None [((u "title"), (VS (SStr (u "Statement Fragment Pointer")))); ((u "description"), (VS (SStr (u "An [RFC6901 JSON Pointer](https://tools.ietf.org/html/rfc6901) describing the target fragment of the statement that this annotation applies to, starting from the root of the statement. A value of '/' indicates that the annotation applies to the whole statement.")))); ((u "type"), (VS (SStr (u "string"))))])); ((u "creationDate"), (VO None [((u "title"), (VS (SStr (u "Creation Date")))); ((u "description"), (VS (SStr (u "The date this annotation was created.")))); ((u "type"), (VS (SStr (u "string")))); ((u "format"), (VS (SStr (u "date"))))])); ((u "createdBy"), (VO None [((u "title"), (VS (SStr (u "Created By")))); ((u "description"), (VS (SStr (u "The person, organisation or agent that created this annotation.")))); ((u "type"), (VS (SStr (u "object")))); ((u "properties"), (VO None [((u "name"), (VO None [((u "title"), (VS (SStr (u "Name")))); ((u "description"), (VS (SStr (u "The name of the person, organisation or agent that created this annotation.")))); ((u "type"), (VS (SStr (u "string"))))])); ((u "uri"), (VO None [((u "title"), (VS (SStr (u "URI")))); ((u "description"), (VS (SStr (u "An optional URI to identify person, organisation or agent that created this annotation.")))); ((u "type"), (VS (SStr (u "string")))); ((u "format"), (VS (SStr (u "uri"))))]))]))])); ((u "motivation"), (VO None [((u "title"), (VS (SStr (u "Motivation")))); ((u "description"), (VS (SStr (u "The motivation for this annotation, chosen from a codelist. See the [annotationMotivation](#annotationmotivation) codelist.")))); ((u "type"), (VS (SStr (u "string")))); ((u "enum"), (VA [(VS (SStr (u "commenting"))); (VS (SStr (u "correcting"))); (VS (SStr (u "identifying"))); (VS (SStr (u "linking"))); (VS (SStr (u "transformation")))])); ((u "codelist"), (VS (SStr (u "annotationMotivation.csv")))); ((u "openCodelist"), (VS (SBool true)))])); ((u "description"), (VO None [((u "title"), (VS (SStr (u "Description")))); ((u "description"), (VS (SStr (u "A free-text description to annotate this statement or field.")))); ((u "type"), (VS (SStr (u "string"))))])); ((u "transformedContent"), (VO None [((u "type"), (VS (SStr (u "string")))); ((u "title"), (VS (SStr (u "Transformed content")))); ((u "description"), (VS (SStr (u "A representation of the annotation target after the transformation in the description field has been applied. This field SHOULD only be used when the motivation is transformation."))))])); ((u "url"), (VO None [((u "title"), (VS (SStr (u "URL")))); ((u "description"), (VS (SStr (u "A linked resource that annotates, provides context for or enhances this statement. The content of the resource, or the relationship to the statement, MAY be described in the description field.")))); ((u "type"), (VS (SStr (u "string")))); ((u "format"), (VS (SStr (u "uri"))))]))])); ((u "anyOf"), (VA [(VO None [((u "properties"), (VO None [((u "motivation"), (VO None [((u "enum"), (VA [(VS (SStr (u "linking")))]))]))])); ((u "required"), (VA [(VS (SStr (u "statementPointerTarget"))); (VS (SStr (u "motivation")))]))]); (VO None [((u "properties"), (VO None [((u "motivation"), (VO None [((u "enum"), (VA [(VS (SStr (u "linking"))); (VS (SStr (u "identifying"))); (VS (SStr (u "commenting"))); (VS (SStr (u "correcting"))); (VS (SStr (u "transformation")))]))]))])); ((u "required"), (VA [(VS (SStr (u "statementPointerTarget"))); (VS (SStr (u "motivation")))]))])]))]))])); ((u "replacesStatements"), (VO (Some [((u "$ref"), (VS (SStr (u "components.json#/definitions/ReplacesStatements"))))]) [((u "title"), (VS (SStr (u "Replaces statement(s)")))); ((u "description"), (VS (SStr (u "If this statement replaces a previous statement or statements, provide the identifier(s) for the previous statement(s) here. Consuming applications are advised to mark the identified statements as no longer active.")))); ((u "type"), (VS (SStr (u "array")))); ((u "items"), (VO None [((u "title"), (VS (SStr (u "Statement identifier")))); ((u "description"), (VS (SStr (u "The identifier of a statement that is no longer active.")))); ((u "type"), (VS (SStr (u "string")))); ((u "minLength"), (VS (SInt (32)))); ((u "maxLength"), (VS (SInt (64))))]))]))])); ((u "required"), (VA [(VS (SStr (u "statementID"))); (VS (SStr (u "statementType"))); (VS (SStr (u "subject"))); (VS (SStr (u "interestedParty")))])); ((u "definitions"), (VO None [((u "InterestedParty"), (VO None [((u "title"), (VS (SStr (u "Interested party")))); ((u "description"), (VS (SStr (u "The interested party has some level of ownership or control over the entity referenced in this ownership or control statement. This should be described with reference to either an entity statement or person statement, or, where the interested party is unknown, details of why. ")))); ((u "type"), (VS (SStr (u "object")))); ((u "properties"), (VO None [((u "describedByEntityStatement"), (VO None [((u "title"), (VS (SStr (u "Described by entity statement")))); ((u "description"), (VS (SStr (u "A reference to a statement describing a registered entity, trust or arrangement that has an ownership or control interest in the subject of this statement. An entityStatement should be used when the direct interests to be described represents known control or ownership by anyone other than a natural person.")))); ((u "type"), (VS (SStr (u "string"))))])); ((u "describedByPersonStatement"), (VO None [((u "title"), (VS (SStr (u "Described by person statement")))); ((u "description"), (VS (SStr (u "A reference to a statement describing a natural person who has an ownership or control interest in the subject of this statement.")))); ((u "type"), (VS (SStr (u "string"))))])); ((u "unspecified"), (VO None [((u "title"), (VS (SStr (u "Unspecified or unknown ownership and control")))); ((u "description"), (VS (SStr (u "When confirmation has been provided that no interested party exists, where ownership and control information does not need to be provided, or where details of ownership and control are unknown, information explaining this should be given using the unspecified reason and description. Where there is a natural person with ownership or control, but their name or details are not known, or cannot be disclosed for some reason, unspecified should not be used, but instead a reference to a personStatement should be provided but identifying details of the person left blank.")))); ((u "type"), (VS (SStr (u "object")))); ((u "properties"), (VO None [((u "reason"), (VO None [((u "title"), (VS (SStr (u "Reason")))); ((u "description"), (VS (SStr ([84; 104; 101; 32; 114; 101; 97; 115; 111; 110; 32; 116; 104; 97; 116; 32; 97; 110; 32; 105; 110; 116; 101; 114; 101; 115; 116; 101; 100; 32; 112; 97; 114; 116; 121; 32; 99; 97; 110; 110; 111; 116; 32; 98; 101; 32; 115; 112; 101; 99; 105; 102; 105; 101; 100; 46; 32; 70; 114; 111; 109; 32; 116; 104; 101; 32; 91; 117; 110; 115; 112; 101; 99; 105; 102; 105; 101; 100; 82; 101; 97; 115; 111; 110; 32; 99; 111; 100; 101; 108; 105; 115; 116; 93; 40; 35; 117; 110; 115; 112; 101; 99; 105; 102; 105; 101; 100; 114; 101; 97; 115; 111; 110; 41; 46]%N)))); ((u "type"), (VS (SStr (u "string")))); ((u "enum"), (VA [(VS (SStr (u "no-beneficial-owners"))); (VS (SStr (u "subject-unable-to-confirm-or-identify-beneficial-owner"))); (VS (SStr (u "interested-party-has-not-provided-information"))); (VS (SStr (u "subject-exempt-from-disclosure"))); (VS (SStr (u "interested-party-exempt-from-disclosure"))); (VS (SStr (u "unknown")))])); ((u "codelist"), (VS (SStr (u "unspecifiedReason.csv")))); ((u "openCodelist"), (VS (SBool false)))])); ((u "description"), (VO None [((u "title"), (VS (SStr (u "Description")))); ((u "description"), (VS (SStr (u "Any supporting information about the absence of a confirmed beneficial owner. This field may be used to provide set phrases from a source system, or for a free-text explanation.")))); ((u "type"), (VS (SStr (u "string"))))]))])); ((u "required"), (VA [(VS (SStr (u "reason")))]))]))]))]))]))])]))]))]))] false)
  [(u "unflatten"); (u "-f"); (u "csv"); (u "examples/bods/unflatten/input"); (u "-o"); (u "examples/bods/unflatten/actual/out.json"); (u "--root-is-list"); (u "--id-name=statementID"); (u "--schema"); (u "examples/bods/schema/bods-package.json")] 0
  [((Some (u "examples/bods/unflatten/actual/out.json")), (line_text lf_ [(u "[");
      (u "    {");
      (u "        ""statementID"": ""fbfd0547-d0c6-4a00-b559-5c5e91c34f5c"",");
      (u "        ""interests"": [");
      (u "            {");
      (u "                ""type"": ""shareholding"",");
      (u "                ""interestLevel"": ""direct"",");
      (u "                ""beneficialOwnershipOrControl"": true,");
      (u "                ""startDate"": ""2016-04-06"",");
      (u "                ""share"": {");
      (u "                    ""exact"": 100");
      (u "                }");
      (u "            }");
      (u "        ],");
      (u "        ""statementType"": ""ownershipOrControlStatement"",");
      (u "        ""statementDate"": ""2017-11-18"",");
      (u "        ""subject"": {");
      (u "            ""describedByEntityStatement"": ""1dc0e987-5c57-4a1c-b3ad-61353b66a9b7""");
      (u "        },");
      (u "        ""interestedParty"": {");
      (u "            ""describedByPersonStatement"": ""019a93f1-e470-42e9-957b-03559861b2e2""");
      (u "        }");
      (u "    }");
      (u "]")]))]). Qed.

(** examples/cafe/list-of-objects: unflatten -f=csv --root-list-path=cafe examples/cafe/list-of-objects/ *)
(* cafe_list_of_objects *)
Goal True. holds (outcome_is (doc_world
    [((u "examples/cafe/list-of-objects/data.csv"), (line_text lf_ [(u "name,table/0/number,table/1/number,table/2/number");
      (u "Healthy Cafe,1,2,3");
      (u "")]))]
    [] []
    [] false)
  [(u "unflatten"); (u "-f=csv"); (u "--root-list-path=cafe"); (u "examples/cafe/list-of-objects/")] 0
  [(None, (line_text lf_ [(u "{");
      (u "    ""cafe"": [");
      (u "        {");
      (u "            ""name"": ""Healthy Cafe"",");
      (u "            ""table"": [");
      (u "                {");
      (u "                    ""number"": ""1""");
      (u "                },");
      (u "                {");
      (u "                    ""number"": ""2""");
      (u "                },");
      (u "                {");
      (u "                    ""number"": ""3""");
      (u "                }");
      (u "            ]");
      (u "        }");
      (u "    ]");
      (u "}");
      (u "")]))]). Qed.

(** examples/cafe/meta-tab: unflatten --input-format=xlsx --metatab-name Meta --metatab-vertical-orientation examples/cafe/meta-tab/meta-tab.xlsx *)
(* cafe_meta_tab *)
Goal True. holds (outcome_is (doc_world
    []
    [((u "examples/cafe/meta-tab/meta-tab.xlsx"), [((u "Meta"), [[(SStr (u "dataLicense")); (SStr (u "CC"))]; [(SStr (u "rowCount")); (SStr (u "2"))]; [(SStr (u "publishedDate")); (SStr (u "2001-01-01"))]]); ((u "data"), [[(SStr (u "name")); (SStr (u "address"))]; [(SStr (u "Healthy Cafe")); (SStr (u "123 City Street, London"))]; [(SStr (u "Vegetarian Cafe")); (SStr (u "42 Town Road, Bristol"))]])])] []
    [] false)
  [(u "unflatten"); (u "--input-format=xlsx"); (u "--metatab-name"); (u "Meta"); (u "--metatab-vertical-orientation"); (u "examples/cafe/meta-tab/meta-tab.xlsx")] 0
  [(None, (line_text lf_ [(u "{");
      (u "    ""dataLicense"": ""CC"",");
      (u "    ""rowCount"": ""2"",");
      (u "    ""publishedDate"": ""2001-01-01"",");
      (u "    ""main"": [");
      (u "        {");
      (u "            ""name"": ""Healthy Cafe"",");
      (u "            ""address"": ""123 City Street, London""");
      (u "        },");
      (u "        {");
      (u "            ""name"": ""Vegetarian Cafe"",");
      (u "            ""address"": ""42 Town Road, Bristol""");
      (u "        }");
      (u "    ]");
      (u "}");
      (u "")]))]). Qed.

(** examples/cafe/meta-tab-only: unflatten --input-format=xlsx --metatab-only --metatab-name Meta --metatab-vertical-orientation examples/cafe/meta-tab-only/meta-tab.xlsx *)
(* cafe_meta_tab_only *)
Goal True. holds (outcome_is (doc_world
    []
    [((u "examples/cafe/meta-tab-only/meta-tab.xlsx"), [((u "Meta"), [[(SStr (u "dataLicense")); (SStr (u "CC"))]; [(SStr (u "rowCount")); (SStr (u "2"))]; [(SStr (u "publishedDate")); (SStr (u "2001-01-01"))]]); ((u "data"), [[(SStr (u "name")); (SStr (u "address"))]; [(SStr (u "Healthy Cafe")); (SStr (u "123 City Street, London"))]; [(SStr (u "Vegetarian Cafe")); (SStr (u "42 Town Road, Bristol"))]])])] []
    [] false)
  [(u "unflatten"); (u "--input-format=xlsx"); (u "--metatab-only"); (u "--metatab-name"); (u "Meta"); (u "--metatab-vertical-orientation"); (u "examples/cafe/meta-tab-only/meta-tab.xlsx")] 0
  [(None, (line_text lf_ [(u "{");
      (u "    ""dataLicense"": ""CC"",");
      (u "    ""rowCount"": ""2"",");
      (u "    ""publishedDate"": ""2001-01-01""");
      (u "}");
      (u "")]))]). Qed.

(** examples/cafe/multiple: unflatten -f=csv --root-list-path=cafe examples/cafe/multiple/ *)
(* cafe_multiple *)
Goal True. holds (outcome_is (doc_world
    [((u "examples/cafe/multiple/data.csv"), (line_text lf_ [(u "name");
      (u "Healthy Cafe");
      (u "")]));
     ((u "examples/cafe/multiple/other.csv"), (line_text lf_ [(u "name");
      (u "Vegetarian Cafe");
      (u "")]))]
    [] []
    [] false)
  [(u "unflatten"); (u "-f=csv"); (u "--root-list-path=cafe"); (u "examples/cafe/multiple/")] 0
  [(None, (line_text lf_ [(u "{");
      (u "    ""cafe"": [");
      (u "        {");
      (u "            ""name"": ""Healthy Cafe""");
      (u "        },");
      (u "        {");
      (u "            ""name"": ""Vegetarian Cafe""");
      (u "        }");
      (u "    ]");
      (u "}");
      (u "")]))]). Qed.

(** examples/cafe/object: unflatten -f=csv --root-list-path=cafe examples/cafe/object/ *)
(* cafe_object *)
Goal True. holds (outcome_is (doc_world
    [((u "examples/cafe/object/data.csv"), (line_text lf_ [(u "name,address/street,address/city");
      (u "Healthy Cafe,123 City Street,London");
      (u "Vegetarian Cafe,42 Town Road,Bristol");
      (u "")]))]
    [] []
    [] false)
  [(u "unflatten"); (u "-f=csv"); (u "--root-list-path=cafe"); (u "examples/cafe/object/")] 0
  [(None, (line_text lf_ [(u "{");
      (u "    ""cafe"": [");
      (u "        {");
      (u "            ""name"": ""Healthy Cafe"",");
      (u "            ""address"": {");
      (u "                ""street"": ""123 City Street"",");
      (u "                ""city"": ""London""");
      (u "            }");
      (u "        },");
      (u "        {");
      (u "            ""name"": ""Vegetarian Cafe"",");
      (u "            ""address"": {");
      (u "                ""street"": ""42 Town Road"",");
      (u "                ""city"": ""Bristol""");
      (u "            }");
      (u "        }");
      (u "    ]");
      (u "}");
      (u "")]))]). Qed.

(** examples/cafe/plain-list: unflatten -f=csv --root-list-path=cafe examples/cafe/plain-list/ *)
(* cafe_plain_list *)
Goal True. holds (outcome_is (doc_world
    [((u "examples/cafe/plain-list/data.csv"), (line_text lf_ [(u "name,tag/0");
      (u "Healthy Cafe,health");
      (u "Vegetarian Cafe,veggie");
      (u "")]))]
    [] []
    [] false)
  [(u "unflatten"); (u "-f=csv"); (u "--root-list-path=cafe"); (u "examples/cafe/plain-list/")] 0
  [(None, (line_text lf_ [(u "{");
      (u "    ""cafe"": [");
      (u "        {");
      (u "            ""name"": ""Healthy Cafe"",");
      (u "            ""tag"": []");
      (u "        },");
      (u "        {");
      (u "            ""name"": ""Vegetarian Cafe"",");
      (u "            ""tag"": []");
      (u "        }");
      (u "    ]");
      (u "}");
      (u "")]))]). Qed.

(** examples/cafe/plain-list-schema: unflatten -f=csv --root-list-path=cafe --schema=examples/cafe/plain-list-schema/tagsArraySchema.json examples/cafe/plain-list-schema/ *)
(* cafe_plain_list_schema *)
Goal True. holds (outcome_is (doc_world
    [((u "examples/cafe/plain-list-schema/data.csv"), (line_text lf_ [(u "name,tags");
      (u "Healthy Cafe,health;low-cost;locally sourced food;take-out");
      (u "Vegetarian Cafe,veggie");
      (u "")]))]
    [] []
    [((u "examples/cafe/plain-list-schema/tagsArraySchema.json"), (VO None [((u "$schema"), (VS (SStr (u "http://json-schema.org/draft-04/schema#")))); ((u "type"), (VS (SStr (u "object")))); ((u "properties"), (VO None [((u "tags"), (VO None [((u "items"), (VO None [((u "type"), (VS (SStr (u "string"))))])); ((u "type"), (VS (SStr (u "array"))))])); ((u "name"), (VO None [((u "type"), (VS (SStr (u "string"))))]))]))]))] false)
  [(u "unflatten"); (u "-f=csv"); (u "--root-list-path=cafe"); (u "--schema=examples/cafe/plain-list-schema/tagsArraySchema.json"); (u "examples/cafe/plain-list-schema/")] 0
  [(None, (line_text lf_ [(u "{");
      (u "    ""cafe"": [");
      (u "        {");
      (u "            ""name"": ""Healthy Cafe"",");
      (u "            ""tags"": [");
      (u "                ""health"",");
      (u "                ""low-cost"",");
      (u "                ""locally sourced food"",");
      (u "                ""take-out""");
      (u "            ]");
      (u "        },");
      (u "        {");
      (u "            ""name"": ""Vegetarian Cafe"",");
      (u "            ""tags"": [");
      (u "                ""veggie""");
      (u "            ]");
      (u "        }");
      (u "    ]");
      (u "}");
      (u "")]))]). Qed.

(** examples/cafe/relationship-grandchild: unflatten -f=csv --root-list-path=cafe examples/cafe/relationship-grandchild/ -s examples/receipt/cafe.schema --convert-titles *)
(* cafe_relationship_grandchild *)
Goal True. holds (outcome_is (doc_world
    [((u "examples/cafe/relationship-grandchild/cafes.csv"), (line_text lf_ [(u "Identifier,Name,Table: Identifier,Table: Number,Table: Dish: Name");
      (u "CAFE-HEALTH,Healthy Cafe,TABLE-1,1,Fish and Chips");
      (u "CAFE-HEALTH,Healthy Cafe,TABLE-2,2");
      (u "CAFE-HEALTH,Healthy Cafe,TABLE-3,3,Fish and Chips");
      (u "")]))]
    [] []
    [((u "examples/receipt/cafe.schema"), (VO None [((u "$schema"), (VS (SStr (u "http://json-schema.org/draft-04/schema#")))); ((u "definitions"), (VO None [((u "TableObject"), (VO None [((u "type"), (VS (SStr (u "object")))); ((u "properties"), (VO None [((u "id"), (VO None [((u "type"), (VS (SStr (u "string")))); ((u "title"), (VS (SStr (u "Identifier"))))])); ((u "number"), (VO None [((u "type"), (VS (SStr (u "integer")))); ((u "title"), (VS (SStr (u "Number"))))])); ((u "dish"), (VO None [((u "items"), (VO (Some [((u "$ref"), (VS (SStr (u "#/definitions/DishObject"))))]) [((u "type"), (VS (SStr (u "object")))); ((u "properties"), (VO None [((u "id"), (VO None [((u "type"), (VS (SStr (u "string")))); ((u "title"), (VS (SStr (u "Identifier"))))])); ((u "name"), (VO None [((u "type"), (VS (SStr (u "string")))); ((u "title"), (VS (SStr (u "Name"))))])); ((u "cost"), (VO None [((u "type"), (VS (SStr (u "number")))); ((u "title"), (VS (SStr (u "Cost"))))]))]))])); ((u "type"), (VS (SStr (u "array")))); ((u "title"), (VS (SStr (u "Dish"))))]))]))])); ((u "DishObject"), (VO None [((u "type"), (VS (SStr (u "object")))); ((u "properties"), (VO None [((u "id"), (VO None [((u "type"), (VS (SStr (u "string")))); ((u "title"), (VS (SStr (u "Identifier"))))])); ((u "name"), (VO None [((u "type"), (VS (SStr (u "string")))); ((u "title"), (VS (SStr (u "Name"))))])); ((u "cost"), (VO None [((u "type"), (VS (SStr (u "number")))); ((u "title"), (VS (SStr (u "Cost"))))]))]))]))])); ((u "type"), (VS (SStr (u "object")))); ((u "properties"), (VO None [((u "id"), (VO None [((u "type"), (VS (SStr (u "string")))); ((u "title"), (VS (SStr (u "Identifier"))))])); ((u "name"), (VO None [((u "type"), (VS (SStr (u "string")))); ((u "title"), (VS (SStr (u "Name"))))])); ((u "address"), (VO None [((u "type"), (VS (SStr (u "string")))); ((u "title"), (VS (SStr (u "Address"))))])); ((u "table"), (VO None [((u "items"), (VO (Some [((u "$ref"), (VS (SStr (u "#/definitions/TableObject"))))]) [((u "type"), (VS (SStr (u "object")))); ((u "properties"), (VO None [((u "id"), (VO None [((u "type"), (VS (SStr (u "string")))); ((u "title"), (VS (SStr (u "Identifier"))))])); ((u "number"), (VO None [((u "type"), (VS (SStr (u "integer")))); ((u "title"), (VS (SStr (u "Number"))))])); ((u "dish"), (VO None [((u "items"), (VO (Some [((u "$ref"), (VS (SStr (u "#/definitions/DishObject"))))]) [((u "type"), (VS (SStr (u "object")))); ((u "properties"), (VO None [((u "id"), (VO None [((u "type"), (VS (SStr (u "string")))); ((u "title"), (VS (SStr (u "Identifier"))))])); ((u "name"), (VO None [((u "type"), (VS (SStr (u "string")))); ((u "title"), (VS (SStr (u "Name"))))])); ((u "cost"), (VO None [((u "type"), (VS (SStr (u "number")))); ((u "title"), (VS (SStr (u "Cost"))))]))]))])); ((u "type"), (VS (SStr (u "array")))); ((u "title"), (VS (SStr (u "Dish"))))]))]))])); ((u "type"), (VS (SStr (u "array")))); ((u "title"), (VS (SStr (u "Table"))))]))]))]))] false)
  [(u "unflatten"); (u "-f=csv"); (u "--root-list-path=cafe"); (u "examples/cafe/relationship-grandchild/"); (u "-s"); (u "examples/receipt/cafe.schema"); (u "--convert-titles")] 0
  [(None, (line_text lf_ [(u "{");
      (u "    ""cafe"": [");
      (u "        {");
      (u "            ""id"": ""CAFE-HEALTH"",");
      (u "            ""name"": ""Healthy Cafe"",");
      (u "            ""table"": [");
      (u "                {");
      (u "                    ""id"": ""TABLE-1"",");
      (u "                    ""number"": 1,");
      (u "                    ""dish"": [");
      (u "                        {");
      (u "                            ""name"": ""Fish and Chips""");
      (u "                        }");
      (u "                    ]");
      (u "                },");
      (u "                {");
      (u "                    ""id"": ""TABLE-2"",");
      (u "                    ""number"": 2");
      (u "                },");
      (u "                {");
      (u "                    ""id"": ""TABLE-3"",");
      (u "                    ""number"": 3,");
      (u "                    ""dish"": [");
      (u "                        {");
      (u "                            ""name"": ""Fish and Chips""");
      (u "                        }");
      (u "                    ]");
      (u "                }");
      (u "            ]");
      (u "        }");
      (u "    ]");
      (u "}");
      (u "")]))]). Qed.

(** examples/cafe/relationship-lists-of-objects: unflatten -f=csv --root-list-path=cafe examples/cafe/relationship-lists-of-objects/ *)
(* cafe_relationship_lists_of_objects *)
Goal True. holds (outcome_is (doc_world
    [((u "examples/cafe/relationship-lists-of-objects/cafes.csv"), (line_text lf_ [(u "id,name");
      (u "CAFE-HEALTH,Healthy Cafe");
      (u "CAFE-VEG,Vegetarian Cafe");
      (u "")]));
     ((u "examples/cafe/relationship-lists-of-objects/tables.csv"), (line_text lf_ [(u "id,table/0/number");
      (u "CAFE-HEALTH,1");
      (u "CAFE-VEG,16");
      (u "CAFE-HEALTH,2");
      (u "CAFE-HEALTH,3");
      (u "CAFE-VEG,17");
      (u "")]))]
    [] []
    [] false)
  [(u "unflatten"); (u "-f=csv"); (u "--root-list-path=cafe"); (u "examples/cafe/relationship-lists-of-objects/")] 0
  [(None, (line_text lf_ [(u "{");
      (u "    ""cafe"": [");
      (u "        {");
      (u "            ""id"": ""CAFE-HEALTH"",");
      (u "            ""name"": ""Healthy Cafe"",");
      (u "            ""table"": [");
      (u "                {");
      (u "                    ""number"": ""1""");
      (u "                },");
      (u "                {");
      (u "                    ""number"": ""2""");
      (u "                },");
      (u "                {");
      (u "                    ""number"": ""3""");
      (u "                }");
      (u "            ]");
      (u "        },");
      (u "        {");
      (u "            ""id"": ""CAFE-VEG"",");
      (u "            ""name"": ""Vegetarian Cafe"",");
      (u "            ""table"": [");
      (u "                {");
      (u "                    ""number"": ""16""");
      (u "                },");
      (u "                {");
      (u "                    ""number"": ""17""");
      (u "                }");
      (u "            ]");
      (u "        }");
      (u "    ]");
      (u "}");
      (u "")]))]). Qed.

(** examples/cafe/relationship-lists-of-objects-simple: unflatten -f=csv --root-list-path=cafe examples/cafe/relationship-lists-of-objects-simple/ *)
(* cafe_relationship_lists_of_objects_simple *)
Goal True. holds (outcome_is (doc_world
    [((u "examples/cafe/relationship-lists-of-objects-simple/data.csv"), (line_text lf_ [(u "id,name,table/0/number,table/1/number,table/2/number");
      (u "CAFE-HEALTH,Healthy Cafe,1,2,3");
      (u "CAFE-VEG,Vegetarian Cafe,16,17,");
      (u "")]))]
    [] []
    [] false)
  [(u "unflatten"); (u "-f=csv"); (u "--root-list-path=cafe"); (u "examples/cafe/relationship-lists-of-objects-simple/")] 0
  [(None, (line_text lf_ [(u "{");
      (u "    ""cafe"": [");
      (u "        {");
      (u "            ""id"": ""CAFE-HEALTH"",");
      (u "            ""name"": ""Healthy Cafe"",");
      (u "            ""table"": [");
      (u "                {");
      (u "                    ""number"": ""1""");
      (u "                },");
      (u "                {");
      (u "                    ""number"": ""2""");
      (u "                },");
      (u "                {");
      (u "                    ""number"": ""3""");
      (u "                }");
      (u "            ]");
      (u "        },");
      (u "        {");
      (u "            ""id"": ""CAFE-VEG"",");
      (u "            ""name"": ""Vegetarian Cafe"",");
      (u "            ""table"": [");
      (u "                {");
      (u "                    ""number"": ""16""");
      (u "                },");
      (u "                {");
      (u "                    ""number"": ""17""");
      (u "                }");
      (u "            ]");
      (u "        }");
      (u "    ]");
      (u "}");
      (u "")]))]). Qed.

(** examples/cafe/relationship-merge-multiple: unflatten -f=csv --root-list-path=cafe examples/cafe/relationship-merge-multiple/ *)
(* cafe_relationship_merge_multiple *)
Goal True. holds (outcome_is (doc_world
    [((u "examples/cafe/relationship-merge-multiple/a.csv"), (line_text lf_ [(u "id,name,address,number_of_tables");
      (u "CAFE-HEALTH,Healthy Cafe,,");
      (u "")]));
     ((u "examples/cafe/relationship-merge-multiple/b.csv"), (line_text lf_ [(u "id,name,address,number_of_tables");
      (u "CAFE-HEALTH,Incorrect value,,3");
      (u "")]));
     ((u "examples/cafe/relationship-merge-multiple/c.csv"), (line_text lf_ [(u "id,name,address,number_of_tables");
      (u "CAFE-HEALTH,,""123 City Street, London"",");
      (u "")]));
     ((u "examples/cafe/relationship-merge-multiple/d.csv"), (line_text lf_ [(u "id,name,address,number_of_tables");
      (u "CAFE-HEALTH,,,4");
      (u "")]))]
    [] []
    [] false)
  [(u "unflatten"); (u "-f=csv"); (u "--root-list-path=cafe"); (u "examples/cafe/relationship-merge-multiple/")] 0
  [(None, (line_text lf_ [(u "{");
      (u "    ""cafe"": [");
      (u "        {");
      (u "            ""id"": ""CAFE-HEALTH"",");
      (u "            ""name"": ""Healthy Cafe"",");
      (u "            ""number_of_tables"": ""3"",");
      (u "            ""address"": ""123 City Street, London""");
      (u "        }");
      (u "    ]");
      (u "}");
      (u "")]))]). Qed.

(** examples/cafe/relationship-merge-single: unflatten -f=csv --root-list-path=cafe examples/cafe/relationship-merge-single/ *)
(* cafe_relationship_merge_single *)
Goal True. holds (outcome_is (doc_world
    [((u "examples/cafe/relationship-merge-single/data.csv"), (line_text lf_ [(u "id,name,address,number_of_tables");
      (u "CAFE-HEALTH,Healthy Cafe,,");
      (u "CAFE-HEALTH,Vegetarian Cafe,,3");
      (u "CAFE-HEALTH,,""123 City Street, London"",");
      (u "CAFE-HEALTH,,,4");
      (u "")]))]
    [] []
    [] false)
  [(u "unflatten"); (u "-f=csv"); (u "--root-list-path=cafe"); (u "examples/cafe/relationship-merge-single/")] 0
  [(None, (line_text lf_ [(u "{");
      (u "    ""cafe"": [");
      (u "        {");
      (u "            ""id"": ""CAFE-HEALTH"",");
      (u "            ""name"": ""Healthy Cafe"",");
      (u "            ""number_of_tables"": ""3"",");
      (u "            ""address"": ""123 City Street, London""");
      (u "        }");
      (u "    ]");
      (u "}");
      (u "")]))]). Qed.

(** examples/cafe/relationship-missing-ids: unflatten -f=csv --root-list-path=cafe examples/cafe/relationship-missing-ids/ *)
(* cafe_relationship_missing_ids *)
Goal True. holds (outcome_is (doc_world
    [((u "examples/cafe/relationship-missing-ids/cafes.csv"), (line_text lf_ [(u "id,name,address");
      (u "CAFE-HEALTH,Healthy Cafe,""123 City Street, London""");
      (u ",Vegetarian Cafe,""42 Town Road, Bristol""");
      (u "")]));
     ((u "examples/cafe/relationship-missing-ids/tables.csv"), (line_text lf_ [(u "id,table/0/number");
      (u "CAFE-HEALTH,1");
      (u "CAFE-HEALTH,2");
      (u "CAFE-HEALTH,3");
      (u "CAFE-VEG,16");
      (u ",17");
      (u "")]))]
    [] []
    [] false)
  [(u "unflatten"); (u "-f=csv"); (u "--root-list-path=cafe"); (u "examples/cafe/relationship-missing-ids/")] 0
  [(None, (line_text lf_ [(u "{");
      (u "    ""cafe"": [");
      (u "        {");
      (u "            ""id"": ""CAFE-HEALTH"",");
      (u "            ""name"": ""Healthy Cafe"",");
      (u "            ""address"": ""123 City Street, London"",");
      (u "            ""table"": [");
      (u "                {");
      (u "                    ""number"": ""1""");
      (u "                },");
      (u "                {");
      (u "                    ""number"": ""2""");
      (u "                },");
      (u "                {");
      (u "                    ""number"": ""3""");
      (u "                }");
      (u "            ]");
      (u "        },");
      (u "        {");
      (u "            ""id"": ""CAFE-VEG"",");
      (u "            ""table"": [");
      (u "                {");
      (u "                    ""number"": ""16""");
      (u "                }");
      (u "            ]");
      (u "        },");
      (u "        {");
      (u "            ""name"": ""Vegetarian Cafe"",");
      (u "            ""address"": ""42 Town Road, Bristol""");
      (u "        },");
      (u "        {");
      (u "            ""table"": [");
      (u "                {");
      (u "                    ""number"": ""17""");
      (u "                }");
      (u "            ]");
      (u "        }");
      (u "    ]");
      (u "}");
      (u "")]))]). Qed.

(** examples/cafe/relationship-multiple: unflatten -f=csv --root-list-path=cafe examples/cafe/relationship-multiple/ *)
(* cafe_relationship_multiple *)
Goal True. holds (outcome_is (doc_world
    [((u "examples/cafe/relationship-multiple/cafes.csv"), (line_text lf_ [(u "id,name");
      (u "CAFE-HEALTH,Healthy Cafe");
      (u "")]));
     ((u "examples/cafe/relationship-multiple/dishes.csv"), (line_text lf_ [(u "id,table/0/id,table/0/dish/0/name");
      (u "CAFE-HEALTH,TABLE-1,Fish and Chips");
      (u "CAFE-HEALTH,TABLE-3,Fish and Chips");
      (u "")]));
     ((u "examples/cafe/relationship-multiple/tables.csv"), (line_text lf_ [(u "id,table/0/id,table/0/number");
      (u "CAFE-HEALTH,TABLE-1,1");
      (u "CAFE-HEALTH,TABLE-2,2");
      (u "CAFE-HEALTH,TABLE-3,3");
      (u "")]))]
    [] []
    [] false)
  [(u "unflatten"); (u "-f=csv"); (u "--root-list-path=cafe"); (u "examples/cafe/relationship-multiple/")] 0
  [(None, (line_text lf_ [(u "{");
      (u "    ""cafe"": [");
      (u "        {");
      (u "            ""id"": ""CAFE-HEALTH"",");
      (u "            ""name"": ""Healthy Cafe"",");
      (u "            ""table"": [");
      (u "                {");
      (u "                    ""id"": ""TABLE-1"",");
      (u "                    ""dish"": [");
      (u "                        {");
      (u "                            ""name"": ""Fish and Chips""");
      (u "                        }");
      (u "                    ],");
      (u "                    ""number"": ""1""");
      (u "                },");
      (u "                {");
      (u "                    ""id"": ""TABLE-3"",");
      (u "                    ""dish"": [");
      (u "                        {");
      (u "                            ""name"": ""Fish and Chips""");
      (u "                        }");
      (u "                    ],");
      (u "                    ""number"": ""3""");
      (u "                },");
      (u "                {");
      (u "                    ""id"": ""TABLE-2"",");
      (u "                    ""number"": ""2""");
      (u "                }");
      (u "            ]");
      (u "        }");
      (u "    ]");
      (u "}");
      (u "")]))]). Qed.

(** examples/cafe/root-is-list: unflatten -f=csv examples/cafe/simple/ --root-is-list *)
(* cafe_root_is_list *)
Goal True. holds (outcome_is (doc_world
    [((u "examples/cafe/simple/data.csv"), (line_text lf_ [(u "name");
      (u "Healthy Cafe");
      (u "")]))]
    [] []
    [] false)
  [(u "unflatten"); (u "-f=csv"); (u "examples/cafe/simple/"); (u "--root-is-list")] 0
  [(None, (line_text lf_ [(u "[");
      (u "    {");
      (u "        ""name"": ""Healthy Cafe""");
      (u "    }");
      (u "]")]))]). Qed.

(** examples/cafe/simple: unflatten -f=csv examples/cafe/simple/ --root-list-path=cafe *)
(* cafe_simple *)
Goal True. holds (outcome_is (doc_world
    [((u "examples/cafe/simple/data.csv"), (line_text lf_ [(u "name");
      (u "Healthy Cafe");
      (u "")]))]
    [] []
    [] false)
  [(u "unflatten"); (u "-f=csv"); (u "examples/cafe/simple/"); (u "--root-list-path=cafe")] 0
  [(None, (line_text lf_ [(u "{");
      (u "    ""cafe"": [");
      (u "        {");
      (u "            ""name"": ""Healthy Cafe""");
      (u "        }");
      (u "    ]");
      (u "}");
      (u "")]))]). Qed.

(** examples/cafe/simple-base-json: unflatten -f=csv --root-list-path=cafe --base-json=examples/cafe/simple-base-json/base.json examples/cafe/simple-base-json/ *)
(* cafe_simple_base_json *)
Goal True. holds (outcome_is (doc_world
    [((u "examples/cafe/simple-base-json/base.json"), (line_text lf_ [(u "{");
      (u "    ""country"": ""England""");
      (u "}");
      (u "")]));
     ((u "examples/cafe/simple-base-json/data.csv"), (line_text lf_ [(u "name");
      (u "Healthy Cafe");
      (u "")]))]
    [] []
    [] false)
  [(u "unflatten"); (u "-f=csv"); (u "--root-list-path=cafe"); (u "--base-json=examples/cafe/simple-base-json/base.json"); (u "examples/cafe/simple-base-json/")] 0
  [(None, (line_text lf_ [(u "{");
      (u "    ""country"": ""England"",");
      (u "    ""cafe"": [");
      (u "        {");
      (u "            ""name"": ""Healthy Cafe""");
      (u "        }");
      (u "    ]");
      (u "}");
      (u "")]))]). Qed.

(** examples/cafe/simple-col: unflatten -f=csv --root-list-path=cafe examples/cafe/simple-col/ *)
(* cafe_simple_col *)
Goal True. holds (outcome_is (doc_world
    [((u "examples/cafe/simple-col/data.csv"), (line_text lf_ [(u "name,address");
      (u "Healthy Cafe,""123 City Street, London""");
      (u "Vegetarian Cafe,""42 Town Road, Bristol""");
      (u "")]))]
    [] []
    [] false)
  [(u "unflatten"); (u "-f=csv"); (u "--root-list-path=cafe"); (u "examples/cafe/simple-col/")] 0
  [(None, (line_text lf_ [(u "{");
      (u "    ""cafe"": [");
      (u "        {");
      (u "            ""name"": ""Healthy Cafe"",");
      (u "            ""address"": ""123 City Street, London""");
      (u "        },");
      (u "        {");
      (u "            ""name"": ""Vegetarian Cafe"",");
      (u "            ""address"": ""42 Town Road, Bristol""");
      (u "        }");
      (u "    ]");
      (u "}");
      (u "")]))]). Qed.

(** examples/cafe/simple-file: unflatten -f=csv examples/cafe/simple/ -o=examples/cafe/simple-file/unflattened.json *)
(* cafe_simple_file *)
Goal True. holds (outcome_is (doc_world
    [((u "examples/cafe/simple/data.csv"), (line_text lf_ [(u "name");
      (u "Healthy Cafe");
      (u "")]))]
    [] []
    [] false)
  [(u "unflatten"); (u "-f=csv"); (u "examples/cafe/simple/"); (u "-o=examples/cafe/simple-file/unflattened.json")] 0
  [((Some (u "examples/cafe/simple-file/unflattened.json")), (line_text lf_ [(u "{");
      (u "    ""main"": [");
      (u "        {");
      (u "            ""name"": ""Healthy Cafe""");
      (u "        }");
      (u "    ]");
      (u "}");
      (u "")]))]). Qed.

(** examples/cafe/simple-row: unflatten -f=csv --root-list-path=cafe examples/cafe/simple-row/ *)
(* cafe_simple_row *)
Goal True. holds (outcome_is (doc_world
    [((u "examples/cafe/simple-row/data.csv"), (line_text lf_ [(u "name");
      (u "Healthy Cafe");
      (u "Vegetarian Cafe");
      (u "")]))]
    [] []
    [] false)
  [(u "unflatten"); (u "-f=csv"); (u "--root-list-path=cafe"); (u "examples/cafe/simple-row/")] 0
  [(None, (line_text lf_ [(u "{");
      (u "    ""cafe"": [");
      (u "        {");
      (u "            ""name"": ""Healthy Cafe""");
      (u "        },");
      (u "        {");
      (u "            ""name"": ""Vegetarian Cafe""");
      (u "        }");
      (u "    ]");
      (u "}");
      (u "")]))]). Qed.

(** examples/cafe/skip-and-headers: unflatten -f=csv --root-list-path=cafe examples/cafe/skip-and-headers/ *)
(* cafe_skip_and_headers *)
Goal True. holds (outcome_is (doc_world
    [((u "examples/cafe/skip-and-headers/data.csv"), (line_text lf_ [(u "#,skiprows 2,headerrows 3");
      (u "This row is skipped,It could contain some provenance data,");
      (u ",,This row is skipped too");
      (u "name,address/street,address/city");
      (u "Name,Street Address,City address");
      (u "Use name from the sign,Don't include the postcode,");
      (u "Healthy Cafe,123 City Street,London");
      (u "Vegetarian Cafe,42 Town Road,Bristol");
      (u "")]))]
    [] []
    [] false)
  [(u "unflatten"); (u "-f=csv"); (u "--root-list-path=cafe"); (u "examples/cafe/skip-and-headers/")] 0
  [(None, (line_text lf_ [(u "{");
      (u "    ""cafe"": [");
      (u "        {");
      (u "            ""name"": ""Healthy Cafe"",");
      (u "            ""address"": {");
      (u "                ""street"": ""123 City Street"",");
      (u "                ""city"": ""London""");
      (u "            }");
      (u "        },");
      (u "        {");
      (u "            ""name"": ""Vegetarian Cafe"",");
      (u "            ""address"": {");
      (u "                ""street"": ""42 Town Road"",");
      (u "                ""city"": ""Bristol""");
      (u "            }");
      (u "        }");
      (u "    ]");
      (u "}");
      (u "")]))]). Qed.

(** examples/cafe/tables-human-1: unflatten -f=csv --root-list-path=cafe --schema=examples/cafe/tables-human-1/cafe.schema --convert-titles examples/cafe/tables-human-1/ *)
(* cafe_tables_human_1 *)
Goal True. holds (outcome_is (doc_world
    [((u "examples/cafe/tables-human-1/data.csv"), (line_text lf_ [(u "name,Table: 0: Number,Table: 1: Number,Table: 2: Number");
      (u "Healthy Cafe,1,2,3");
      (u "")]))]
    [] []
    [((u "examples/cafe/tables-human-1/cafe.schema"), (VO None [((u "$schema"), (VS (SStr (u "http://json-schema.org/draft-04/schema#")))); ((u "definitions"), (VO None [((u "TableObject"), (VO None [((u "type"), (VS (SStr (u "object")))); ((u "properties"), (VO None [((u "number"), (VO None [((u "title"), (VS (SStr (u "Number")))); ((u "type"), (VS (SStr (u "integer"))))]))]))]))])); ((u "type"), (VS (SStr (u "object")))); ((u "properties"), (VO None [((u "table"), (VO None [((u "items"), (VO (Some [((u "$ref"), (VS (SStr (u "#/definitions/TableObject"))))]) [((u "type"), (VS (SStr (u "object")))); ((u "properties"), (VO None [((u "number"), (VO None [((u "title"), (VS (SStr (u "Number")))); ((u "type"), (VS (SStr (u "integer"))))]))]))])); ((u "title"), (VS (SStr (u "Table")))); ((u "type"), (VS (SStr (u "array"))))]))]))]))] false)
  [(u "unflatten"); (u "-f=csv"); (u "--root-list-path=cafe"); (u "--schema=examples/cafe/tables-human-1/cafe.schema"); (u "--convert-titles"); (u "examples/cafe/tables-human-1/")] 0
  [(None, (line_text lf_ [(u "{");
      (u "    ""cafe"": [");
      (u "        {");
      (u "            ""name"": ""Healthy Cafe"",");
      (u "            ""table"": [");
      (u "                {");
      (u "                    ""number"": 1");
      (u "                },");
      (u "                {");
      (u "                    ""number"": 2");
      (u "                },");
      (u "                {");
      (u "                    ""number"": 3");
      (u "                }");
      (u "            ]");
      (u "        }");
      (u "    ]");
      (u "}");
      (u "")]))]). Qed.

(** examples/cafe/tables-human-2: unflatten -f=csv --root-list-path=cafe --schema=examples/cafe/tables-human-2/cafe.schema --convert-titles examples/cafe/tables-human-2/ *)
(* cafe_tables_human_2 *)
Goal True. holds (outcome_is (doc_world
    [((u "examples/cafe/tables-human-2/data.csv"), (line_text lf_ [(u "name,Table: Number");
      (u "Healthy Cafe,1");
      (u "")]))]
    [] []
    [((u "examples/cafe/tables-human-2/cafe.schema"), (VO None [((u "$schema"), (VS (SStr (u "http://json-schema.org/draft-04/schema#")))); ((u "definitions"), (VO None [((u "TableObject"), (VO None [((u "type"), (VS (SStr (u "object")))); ((u "properties"), (VO None [((u "number"), (VO None [((u "title"), (VS (SStr (u "Number")))); ((u "type"), (VS (SStr (u "integer"))))]))]))]))])); ((u "type"), (VS (SStr (u "object")))); ((u "properties"), (VO None [((u "table"), (VO None [((u "items"), (VO (Some [((u "$ref"), (VS (SStr (u "#/definitions/TableObject"))))]) [((u "type"), (VS (SStr (u "object")))); ((u "properties"), (VO None [((u "number"), (VO None [((u "title"), (VS (SStr (u "Number")))); ((u "type"), (VS (SStr (u "integer"))))]))]))])); ((u "title"), (VS (SStr (u "Table")))); ((u "type"), (VS (SStr (u "array"))))]))]))]))] false)
  [(u "unflatten"); (u "-f=csv"); (u "--root-list-path=cafe"); (u "--schema=examples/cafe/tables-human-2/cafe.schema"); (u "--convert-titles"); (u "examples/cafe/tables-human-2/")] 0
  [(None, (line_text lf_ [(u "{");
      (u "    ""cafe"": [");
      (u "        {");
      (u "            ""name"": ""Healthy Cafe"",");
      (u "            ""table"": [");
      (u "                {");
      (u "                    ""number"": 1");
      (u "                }");
      (u "            ]");
      (u "        }");
      (u "    ]");
      (u "}");
      (u "")]))]). Qed.

(** examples/cafe/tables-index: unflatten -f=csv --root-list-path=cafe examples/cafe/tables-index/ *)
(* cafe_tables_index *)
Goal True. holds (outcome_is (doc_world
    [((u "examples/cafe/tables-index/data.csv"), (line_text lf_ [(u "name,table/30/number,table/20/number,table/10/number");
      (u "Healthy Cafe,1,2,3");
      (u "")]))]
    [] []
    [] false)
  [(u "unflatten"); (u "-f=csv"); (u "--root-list-path=cafe"); (u "examples/cafe/tables-index/")] 0
  [(None, (line_text lf_ [(u "{");
      (u "    ""cafe"": [");
      (u "        {");
      (u "            ""name"": ""Healthy Cafe"",");
      (u "            ""table"": [");
      (u "                {");
      (u "                    ""number"": ""3""");
      (u "                },");
      (u "                {");
      (u "                    ""number"": ""2""");
      (u "                },");
      (u "                {");
      (u "                    ""number"": ""1""");
      (u "                }");
      (u "            ]");
      (u "        }");
      (u "    ]");
      (u "}");
      (u "")]))]). Qed.

(** examples/cafe/tables-index-reserved: unflatten -f=csv --root-list-path=cafe examples/cafe/tables-index-reserved/ *)
(* cafe_tables_index_reserved *)
Goal True. holds (outcome_is (doc_world
    [((u "examples/cafe/tables-index-reserved/data.csv"), (line_text lf_ [(u "name,table/30/number,table/20/number,table/10/number,table/30/reserved");
      (u "Healthy Cafe,1,2,3,True");
      (u "")]))]
    [] []
    [] false)
  [(u "unflatten"); (u "-f=csv"); (u "--root-list-path=cafe"); (u "examples/cafe/tables-index-reserved/")] 0
  [(None, (line_text lf_ [(u "{");
      (u "    ""cafe"": [");
      (u "        {");
      (u "            ""name"": ""Healthy Cafe"",");
      (u "            ""table"": [");
      (u "                {");
      (u "                    ""number"": ""3""");
      (u "                },");
      (u "                {");
      (u "                    ""number"": ""2""");
      (u "                },");
      (u "                {");
      (u "                    ""number"": ""1"",");
      (u "                    ""reserved"": ""True""");
      (u "                }");
      (u "            ]");
      (u "        }");
      (u "    ]");
      (u "}");
      (u "")]))]). Qed.

(** examples/cafe/tables-typed-schema: unflatten -f=csv --root-list-path=cafe --schema=examples/cafe/tables-typed-schema/cafe.schema examples/cafe/tables-typed-schema/ *)
(* cafe_tables_typed_schema *)
Goal True. holds (outcome_is (doc_world
    [((u "examples/cafe/tables-typed-schema/data.csv"), (line_text lf_ [(u "name,table/0/number,table/1/number,table/2/number");
      (u "Healthy Cafe,1,2,3");
      (u "")]))]
    [] []
    [((u "examples/cafe/tables-typed-schema/cafe.schema"), (VO None [((u "$schema"), (VS (SStr (u "http://json-schema.org/draft-04/schema#")))); ((u "definitions"), (VO None [((u "TableObject"), (VO None [((u "type"), (VS (SStr (u "object")))); ((u "properties"), (VO None [((u "number"), (VO None [((u "type"), (VS (SStr (u "integer"))))]))]))]))])); ((u "type"), (VS (SStr (u "object")))); ((u "properties"), (VO None [((u "table"), (VO None [((u "items"), (VO (Some [((u "$ref"), (VS (SStr (u "#/definitions/TableObject"))))]) [((u "type"), (VS (SStr (u "object")))); ((u "properties"), (VO None [((u "number"), (VO None [((u "type"), (VS (SStr (u "integer"))))]))]))])); ((u "type"), (VS (SStr (u "array"))))]))]))]))] false)
  [(u "unflatten"); (u "-f=csv"); (u "--root-list-path=cafe"); (u "--schema=examples/cafe/tables-typed-schema/cafe.schema"); (u "examples/cafe/tables-typed-schema/")] 0
  [(None, (line_text lf_ [(u "{");
      (u "    ""cafe"": [");
      (u "        {");
      (u "            ""name"": ""Healthy Cafe"",");
      (u "            ""table"": [");
      (u "                {");
      (u "                    ""number"": 1");
      (u "                },");
      (u "                {");
      (u "                    ""number"": 2");
      (u "                },");
      (u "                {");
      (u "                    ""number"": 3");
      (u "                }");
      (u "            ]");
      (u "        }");
      (u "    ]");
      (u "}");
      (u "")]))]). Qed.

(** examples/cafe/tables-typed-xlsx: unflatten -f=xlsx --root-list-path=cafe examples/cafe/tables-typed-xlsx/tables.xlsx *)
(* cafe_tables_typed_xlsx *)
Goal True. holds (outcome_is (doc_world
    []
    [((u "examples/cafe/tables-typed-xlsx/tables.xlsx"), [((u "Sheet1"), [[(SStr (u "name")); (SStr (u "table/1/number")); (SStr (u "table/2/number")); (SStr (u "table/3/number"))]; [(SStr (u "Healthy Cafe")); (SInt 1); (SInt 2); (SInt 3)]])])] []
    [] false)
  [(u "unflatten"); (u "-f=xlsx"); (u "--root-list-path=cafe"); (u "examples/cafe/tables-typed-xlsx/tables.xlsx")] 0
  [(None, (line_text lf_ [(u "{");
      (u "    ""cafe"": [");
      (u "        {");
      (u "            ""name"": ""Healthy Cafe"",");
      (u "            ""table"": [");
      (u "                {");
      (u "                    ""number"": 1");
      (u "                },");
      (u "                {");
      (u "                    ""number"": 2");
      (u "                },");
      (u "                {");
      (u "                    ""number"": 3");
      (u "                }");
      (u "            ]");
      (u "        }");
      (u "    ]");
      (u "}");
      (u "")]))]). Qed.

(** examples/cafe/too-simple: unflatten -f=csv examples/cafe/simple/ *)
(* cafe_too_simple *)
Goal True. holds (outcome_is (doc_world
    [((u "examples/cafe/simple/data.csv"), (line_text lf_ [(u "name");
      (u "Healthy Cafe");
      (u "")]))]
    [] []
    [] false)
  [(u "unflatten"); (u "-f=csv"); (u "examples/cafe/simple/")] 0
  [(None, (line_text lf_ [(u "{");
      (u "    ""main"": [");
      (u "        {");
      (u "            ""name"": ""Healthy Cafe""");
      (u "        }");
      (u "    ]");
      (u "}");
      (u "")]))]). Qed.

(** examples/create-template/deprecated-no: create-template --no-deprecated-fields --use-titles --main-sheet-name=cafe --schema=examples/create-template/deprecated.schema -f csv -o examples/create-template/deprecated-no/actual *)
(* create_template_deprecated_no *)
Goal True. holds (outcome_is (doc_world
    []
    [] []
    [((u "examples/create-template/deprecated.schema"), (VO None [((u "$schema"), (VS (SStr (u "http://json-schema.org/draft-04/schema#")))); ((u "definitions"), (VO None [((u "TableObject"), (VO None [((u "type"), (VS (SStr (u "object")))); ((u "properties"), (VO None [((u "id"), (VO None [((u "type"), (VS (SStr (u "string")))); ((u "title"), (VS (SStr (u "Identifier"))))])); ((u "number"), (VO None [((u "type"), (VS (SStr (u "integer")))); ((u "title"), (VS (SStr (u "Number"))))])); ((u "dish"), (VO None [((u "items"), (VO (Some [((u "$ref"), (VS (SStr (u "#/definitions/DishObject"))))]) [((u "type"), (VS (SStr (u "object")))); ((u "properties"), (VO None [((u "id"), (VO None [((u "type"), (VS (SStr (u "string")))); ((u "title"), (VS (SStr (u "Identifier"))))])); ((u "name"), (VO None [((u "type"), (VS (SStr (u "string")))); ((u "title"), (VS (SStr (u "Name"))))])); ((u "cost"), (VO None [((u "type"), (VS (SStr (u "number")))); ((u "title"), (VS (SStr (u "Cost"))))]))]))])); ((u "type"), (VS (SStr (u "array")))); ((u "title"), (VS (SStr (u "Dish"))))]))]))])); ((u "DishObject"), (VO None [((u "type"), (VS (SStr (u "object")))); ((u "properties"), (VO None [((u "id"), (VO None [((u "type"), (VS (SStr (u "string")))); ((u "title"), (VS (SStr (u "Identifier"))))])); ((u "name"), (VO None [((u "type"), (VS (SStr (u "string")))); ((u "title"), (VS (SStr (u "Name"))))])); ((u "cost"), (VO None [((u "type"), (VS (SStr (u "number")))); ((u "title"), (VS (SStr (u "Cost"))))]))]))]))])); ((u "type"), (VS (SStr (u "object")))); ((u "properties"), (VO None [((u "id"), (VO None [((u "type"), (VS (SStr (u "string")))); ((u "title"), (VS (SStr (u "Identifier"))))])); ((u "name"), (VO None [((u "type"), (VS (SStr (u "string")))); ((u "title"), (VS (SStr (u "Name"))))])); ((u "formalname"), (VO None [((u "type"), (VS (SStr (u "string")))); ((u "title"), (VS (SStr (u "Formal Name")))); ((u "deprecated"), (VO None [((u "description"), (VS (SStr (u "We found people prefer to be addressed by their nick names")))); ((u "deprecatedVersion"), (VS (SStr (u "v17"))))]))])); ((u "address"), (VO None [((u "type"), (VS (SStr (u "string")))); ((u "title"), (VS (SStr (u "Address"))))])); ((u "table"), (VO None [((u "items"), (VO (Some [((u "$ref"), (VS (SStr (u "#/definitions/TableObject"))))]) [((u "type"), (VS (SStr (u "object")))); ((u "properties"), (VO None [((u "id"), (VO None [((u "type"), (VS (SStr (u "string")))); ((u "title"), (VS (SStr (u "Identifier"))))])); ((u "number"), (VO None [((u "type"), (VS (SStr (u "integer")))); ((u "title"), (VS (SStr (u "Number"))))])); ((u "dish"), (VO None [((u "items"), (VO (Some [((u "$ref"), (VS (SStr (u "#/definitions/DishObject"))))]) [((u "type"), (VS (SStr (u "object")))); ((u "properties"), (VO None [((u "id"), (VO None [((u "type"), (VS (SStr (u "string")))); ((u "title"), (VS (SStr (u "Identifier"))))])); ((u "name"), (VO None [((u "type"), (VS (SStr (u "string")))); ((u "title"), (VS (SStr (u "Name"))))])); ((u "cost"), (VO None [((u "type"), (VS (SStr (u "number")))); ((u "title"), (VS (SStr (u "Cost"))))]))]))])); ((u "type"), (VS (SStr (u "array")))); ((u "title"), (VS (SStr (u "Dish"))))]))]))])); ((u "type"), (VS (SStr (u "array")))); ((u "title"), (VS (SStr (u "Table"))))])); ((u "coats"), (VO None [((u "deprecated"), (VS (SBool true))); ((u "items"), (VO None [((u "type"), (VS (SStr (u "object")))); ((u "properties"), (VO None [((u "description"), (VO None [((u "type"), (VS (SStr (u "string")))); ((u "title"), (VS (SStr (u "Description"))))]))]))])); ((u "type"), (VS (SStr (u "array")))); ((u "title"), (VS (SStr (u "Coats"))))]))]))]))] false)
  [(u "create-template"); (u "--no-deprecated-fields"); (u "--use-titles"); (u "--main-sheet-name=cafe"); (u "--schema=examples/create-template/deprecated.schema"); (u "-f"); (u "csv"); (u "-o"); (u "examples/create-template/deprecated-no/actual")] 0
  [((Some (u "examples/create-template/deprecated-no/actual/Tab_Dish.csv")), (line_text crlf_ [(u "Identifier,Table:Identifier,Table:Dish:Identifier,Table:Dish:Name,Table:Dish:Cost");
      (u "")]));
   ((Some (u "examples/create-template/deprecated-no/actual/Table.csv")), (line_text crlf_ [(u "Identifier,Table:Identifier,Table:Number");
      (u "")]));
   ((Some (u "examples/create-template/deprecated-no/actual/cafe.csv")), (line_text crlf_ [(u "Identifier,Name,Address");
      (u "")]))]). Qed.

(** examples/create-template/deprecated-no-ref: create-template --no-deprecated-fields --use-titles --main-sheet-name=interviewee --schema=examples/create-template/deprecated-ref.schema -f csv -o examples/create-template/deprecated-no-ref/actual *)
(* create_template_deprecated_no_ref *)
Goal True. holds (outcome_is (doc_world
    []
    [] []
    [((u "examples/create-template/deprecated-ref.schema"), (VO None [((u "$schema"), (VS (SStr (u "http://json-schema.org/draft-04/schema#")))); ((u "definitions"), (VO None [((u "Pet"), (VO None [((u "type"), (VS (SStr (u "object")))); ((u "properties"), (VO None [((u "name"), (VO None [((u "type"), (VS (SStr (u "string")))); ((u "title"), (VS (SStr (u "Pet name"))))]))]))]))])); ((u "type"), (VS (SStr (u "object")))); ((u "properties"), (VO None [((u "id"), (VO None [((u "type"), (VS (SStr (u "string")))); ((u "title"), (VS (SStr (u "Identifier"))))])); ((u "name"), (VO None [((u "type"), (VS (SStr (u "string")))); ((u "title"), (VS (SStr (u "Name"))))])); ((u "pet"), (VO (Some [((u "type"), (VS (SStr (u "string")))); ((u "title"), (VS (SStr (u "Pet")))); ((u "$ref"), (VS (SStr (u "#/definitions/Pet")))); ((u "deprecated"), (VO None [((u "description"), (VS (SStr (u "So yeah, H.R. told us that asking people in job interviews if they have pets is super illegal. Better stop that."))))]))]) [((u "type"), (VS (SStr (u "object")))); ((u "properties"), (VO None [((u "name"), (VO None [((u "type"), (VS (SStr (u "string")))); ((u "title"), (VS (SStr (u "Pet name"))))]))]))]))]))]))] false)
  [(u "create-template"); (u "--no-deprecated-fields"); (u "--use-titles"); (u "--main-sheet-name=interviewee"); (u "--schema=examples/create-template/deprecated-ref.schema"); (u "-f"); (u "csv"); (u "-o"); (u "examples/create-template/deprecated-no-ref/actual")] 0
  [((Some (u "examples/create-template/deprecated-no-ref/actual/interviewee.csv")), (line_text crlf_ [(u "Identifier,Name");
      (u "")]))]). Qed.

(** examples/create-template/deprecated-yes: create-template --use-titles --main-sheet-name=cafe --schema=examples/create-template/deprecated.schema -f csv -o examples/create-template/deprecated-yes/actual *)
(* create_template_deprecated_yes *)
Goal True. holds (outcome_is (doc_world
    []
    [] []
    [((u "examples/create-template/deprecated.schema"), (VO None [((u "$schema"), (VS (SStr (u "http://json-schema.org/draft-04/schema#")))); ((u "definitions"), (VO None [((u "TableObject"), (VO None [((u "type"), (VS (SStr (u "object")))); ((u "properties"), (VO None [((u "id"), (VO None [((u "type"), (VS (SStr (u "string")))); ((u "title"), (VS (SStr (u "Identifier"))))])); ((u "number"), (VO None [((u "type"), (VS (SStr (u "integer")))); ((u "title"), (VS (SStr (u "Number"))))])); ((u "dish"), (VO None [((u "items"), (VO (Some [((u "$ref"), (VS (SStr (u "#/definitions/DishObject"))))]) [((u "type"), (VS (SStr (u "object")))); ((u "properties"), (VO None [((u "id"), (VO None [((u "type"), (VS (SStr (u "string")))); ((u "title"), (VS (SStr (u "Identifier"))))])); ((u "name"), (VO None [((u "type"), (VS (SStr (u "string")))); ((u "title"), (VS (SStr (u "Name"))))])); ((u "cost"), (VO None [((u "type"), (VS (SStr (u "number")))); ((u "title"), (VS (SStr (u "Cost"))))]))]))])); ((u "type"), (VS (SStr (u "array")))); ((u "title"), (VS (SStr (u "Dish"))))]))]))])); ((u "DishObject"), (VO None [((u "type"), (VS (SStr (u "object")))); ((u "properties"), (VO None [((u "id"), (VO None [((u "type"), (VS (SStr (u "string")))); ((u "title"), (VS (SStr (u "Identifier"))))])); ((u "name"), (VO None [((u "type"), (VS (SStr (u "string")))); ((u "title"), (VS (SStr (u "Name"))))])); ((u "cost"), (VO None [((u "type"), (VS (SStr (u "number")))); ((u "title"), (VS (SStr (u "Cost"))))]))]))]))])); ((u "type"), (VS (SStr (u "object")))); ((u "properties"), (VO None [((u "id"), (VO None [((u "type"), (VS (SStr (u "string")))); ((u "title"), (VS (SStr (u "Identifier"))))])); ((u "name"), (VO None [((u "type"), (VS (SStr (u "string")))); ((u "title"), (VS (SStr (u "Name"))))])); ((u "formalname"), (VO None [((u "type"), (VS (SStr (u "string")))); ((u "title"), (VS (SStr (u "Formal Name")))); ((u "deprecated"), (VO None [((u "description"), (VS (SStr (u "We found people prefer to be addressed by their nick names")))); ((u "deprecatedVersion"), (VS (SStr (u "v17"))))]))])); ((u "address"), (VO None [((u "type"), (VS (SStr (u "string")))); ((u "title"), (VS (SStr (u "Address"))))])); ((u "table"), (VO None [((u "items"), (VO (Some [((u "$ref"), (VS (SStr (u "#/definitions/TableObject"))))]) [((u "type"), (VS (SStr (u "object")))); ((u "properties"), (VO None [((u "id"), (VO None [((u "type"), (VS (SStr (u "string")))); ((u "title"), (VS (SStr (u "Identifier"))))])); ((u "number"), (VO None [((u "type"), (VS (SStr (u "integer")))); ((u "title"), (VS (SStr (u "Number"))))])); ((u "dish"), (VO None [((u "items"), (VO (Some [((u "$ref"), (VS (SStr (u "#/definitions/DishObject"))))]) [((u "type"), (VS (SStr (u "object")))); ((u "properties"), (VO None [((u "id"), (VO None [((u "type"), (VS (SStr (u "string")))); ((u "title"), (VS (SStr (u "Identifier"))))])); ((u "name"), (VO None [((u "type"), (VS (SStr (u "string")))); ((u "title"), (VS (SStr (u "Name"))))])); ((u "cost"), (VO None [((u "type"), (VS (SStr (u "number")))); ((u "title"), (VS (SStr (u "Cost"))))]))]))])); ((u "type"), (VS (SStr (u "array")))); ((u "title"), (VS (SStr (u "Dish"))))]))]))])); ((u "type"), (VS (SStr (u "array")))); ((u "title"), (VS (SStr (u "Table"))))])); ((u "coats"), (VO None [((u "deprecated"), (VS (SBool true))); ((u "items"), (VO None [((u "type"), (VS (SStr (u "object")))); ((u "properties"), (VO None [((u "description"), (VO None [((u "type"), (VS (SStr (u "string")))); ((u "title"), (VS (SStr (u "Description"))))]))]))])); ((u "type"), (VS (SStr (u "array")))); ((u "title"), (VS (SStr (u "Coats"))))]))]))]))] false)
  [(u "create-template"); (u "--use-titles"); (u "--main-sheet-name=cafe"); (u "--schema=examples/create-template/deprecated.schema"); (u "-f"); (u "csv"); (u "-o"); (u "examples/create-template/deprecated-yes/actual")] 0
  [((Some (u "examples/create-template/deprecated-yes/actual/Coats.csv")), (line_text crlf_ [(u "Identifier,Coats:Description");
      (u "")]));
   ((Some (u "examples/create-template/deprecated-yes/actual/Tab_Dish.csv")), (line_text crlf_ [(u "Identifier,Table:Identifier,Table:Dish:Identifier,Table:Dish:Name,Table:Dish:Cost");
      (u "")]));
   ((Some (u "examples/create-template/deprecated-yes/actual/Table.csv")), (line_text crlf_ [(u "Identifier,Table:Identifier,Table:Number");
      (u "")]));
   ((Some (u "examples/create-template/deprecated-yes/actual/cafe.csv")), (line_text crlf_ [(u "Identifier,Name,Formal Name,Address");
      (u "")]))]). Qed.

(** examples/create-template/deprecated-yes-ref: create-template --use-titles --main-sheet-name=interviewee --schema=examples/create-template/deprecated-ref.schema -f csv -o examples/create-template/deprecated-yes-ref/actual *)
(* create_template_deprecated_yes_ref *)
Goal True. holds (outcome_is (doc_world
    []
    [] []
    [((u "examples/create-template/deprecated-ref.schema"), (VO None [((u "$schema"), (VS (SStr (u "http://json-schema.org/draft-04/schema#")))); ((u "definitions"), (VO None [((u "Pet"), (VO None [((u "type"), (VS (SStr (u "object")))); ((u "properties"), (VO None [((u "name"), (VO None [((u "type"), (VS (SStr (u "string")))); ((u "title"), (VS (SStr (u "Pet name"))))]))]))]))])); ((u "type"), (VS (SStr (u "object")))); ((u "properties"), (VO None [((u "id"), (VO None [((u "type"), (VS (SStr (u "string")))); ((u "title"), (VS (SStr (u "Identifier"))))])); ((u "name"), (VO None [((u "type"), (VS (SStr (u "string")))); ((u "title"), (VS (SStr (u "Name"))))])); ((u "pet"), (VO (Some [((u "type"), (VS (SStr (u "string")))); ((u "title"), (VS (SStr (u "Pet")))); ((u "$ref"), (VS (SStr (u "#/definitions/Pet")))); ((u "deprecated"), (VO None [((u "description"), (VS (SStr (u "So yeah, H.R. told us that asking people in job interviews if they have pets is super illegal. Better stop that."))))]))]) [((u "type"), (VS (SStr (u "object")))); ((u "properties"), (VO None [((u "name"), (VO None [((u "type"), (VS (SStr (u "string")))); ((u "title"), (VS (SStr (u "Pet name"))))]))]))]))]))]))] false)
  [(u "create-template"); (u "--use-titles"); (u "--main-sheet-name=interviewee"); (u "--schema=examples/create-template/deprecated-ref.schema"); (u "-f"); (u "csv"); (u "-o"); (u "examples/create-template/deprecated-yes-ref/actual")] 0
  [((Some (u "examples/create-template/deprecated-yes-ref/actual/interviewee.csv")), (line_text crlf_ [(u "Identifier,Name,Pet:Pet name");
      (u "")]))]). Qed.

(** examples/create-template/refs: create-template --schema=examples/create-template/refs/main.json -f csv -o examples/create-template/refs/actual *)
(* create_template_refs *)
Goal True. holds (outcome_is (doc_world
    []
    [] []
    [((u "examples/create-template/refs/main.json"), (VO None [((u "properties"), (VO None [((u "address"), (VO (Some [((u "$ref"), (VS (SStr (u "definitions.json#/definition/address"))))]) [((u "title"), (VS (SStr (u "An Address")))); ((u "description"), (VS (SStr (u "A Description")))); ((u "type"), (VS (SStr (u "object")))); ((u "properties"), (VO None [((u "address"), (VO None [((u "type"), (VS (SStr (u "string"))))])); ((u "country"), (VO None [((u "type"), (VS (SStr (u "string"))))]))]))]))]))]))] false)
  [(u "create-template"); (u "--schema=examples/create-template/refs/main.json"); (u "-f"); (u "csv"); (u "-o"); (u "examples/create-template/refs/actual")] 0
  [((Some (u "examples/create-template/refs/actual/main.csv")), (line_text crlf_ [(u "address/address,address/country");
      (u "")]))]). Qed.

(** examples/create-template/refs-disable-local-refs: create-template --disable-local-refs --schema=examples/create-template/refs-disable-local-refs/main.json -f csv -o examples/create-template/refs-disable-local-refs/actual *)
(* create_template_refs_disable_local_refs *)
Goal True. holds (outcome_is (doc_world
    []
    [] []
    [] true)
  [(u "create-template"); (u "--disable-local-refs"); (u "--schema=examples/create-template/refs-disable-local-refs/main.json"); (u "-f"); (u "csv"); (u "-o"); (u "examples/create-template/refs-disable-local-refs/actual")] 1
  []). Qed.

(** examples/create-template/rollup: create-template --use-titles --main-sheet-name=cafe --schema=examples/receipt/cafe-rollup.schema --rollup -f csv -o examples/create-template/rollup/actual *)
(* create_template_rollup *)
Goal True. holds (outcome_is (doc_world
    []
    [] []
    [((u "examples/receipt/cafe-rollup.schema"), (VO None [((u "$schema"), (VS (SStr (u "http://json-schema.org/draft-04/schema#")))); ((u "definitions"), (VO None [((u "TableObject"), (VO None [((u "type"), (VS (SStr (u "object")))); ((u "properties"), (VO None [((u "id"), (VO None [((u "type"), (VS (SStr (u "string")))); ((u "title"), (VS (SStr (u "Identifier"))))])); ((u "number"), (VO None [((u "type"), (VS (SStr (u "integer")))); ((u "title"), (VS (SStr (u "Number"))))])); ((u "dish"), (VO None [((u "items"), (VO (Some [((u "$ref"), (VS (SStr (u "#/definitions/DishObject"))))]) [((u "type"), (VS (SStr (u "object")))); ((u "properties"), (VO None [((u "id"), (VO None [((u "type"), (VS (SStr (u "string")))); ((u "title"), (VS (SStr (u "Identifier"))))])); ((u "name"), (VO None [((u "type"), (VS (SStr (u "string")))); ((u "title"), (VS (SStr (u "Name"))))])); ((u "cost"), (VO None [((u "type"), (VS (SStr (u "number")))); ((u "title"), (VS (SStr (u "Cost"))))]))]))])); ((u "type"), (VS (SStr (u "array")))); ((u "title"), (VS (SStr (u "Dish"))))]))]))])); ((u "DishObject"), (VO None [((u "type"), (VS (SStr (u "object")))); ((u "properties"), (VO None [((u "id"), (VO None [((u "type"), (VS (SStr (u "string")))); ((u "title"), (VS (SStr (u "Identifier"))))])); ((u "name"), (VO None [((u "type"), (VS (SStr (u "string")))); ((u "title"), (VS (SStr (u "Name"))))])); ((u "cost"), (VO None [((u "type"), (VS (SStr (u "number")))); ((u "title"), (VS (SStr (u "Cost"))))]))]))]))])); ((u "type"), (VS (SStr (u "object")))); ((u "properties"), (VO None [((u "id"), (VO None [((u "type"), (VS (SStr (u "string")))); ((u "title"), (VS (SStr (u "Identifier"))))])); ((u "name"), (VO None [((u "type"), (VS (SStr (u "string")))); ((u "title"), (VS (SStr (u "Name"))))])); ((u "address"), (VO None [((u "type"), (VS (SStr (u "string")))); ((u "title"), (VS (SStr (u "Address"))))])); ((u "table"), (VO None [((u "items"), (VO (Some [((u "$ref"), (VS (SStr (u "#/definitions/TableObject"))))]) [((u "type"), (VS (SStr (u "object")))); ((u "properties"), (VO None [((u "id"), (VO None [((u "type"), (VS (SStr (u "string")))); ((u "title"), (VS (SStr (u "Identifier"))))])); ((u "number"), (VO None [((u "type"), (VS (SStr (u "integer")))); ((u "title"), (VS (SStr (u "Number"))))])); ((u "dish"), (VO None [((u "items"), (VO (Some [((u "$ref"), (VS (SStr (u "#/definitions/DishObject"))))]) [((u "type"), (VS (SStr (u "object")))); ((u "properties"), (VO None [((u "id"), (VO None [((u "type"), (VS (SStr (u "string")))); ((u "title"), (VS (SStr (u "Identifier"))))])); ((u "name"), (VO None [((u "type"), (VS (SStr (u "string")))); ((u "title"), (VS (SStr (u "Name"))))])); ((u "cost"), (VO None [((u "type"), (VS (SStr (u "number")))); ((u "title"), (VS (SStr (u "Cost"))))]))]))])); ((u "type"), (VS (SStr (u "array")))); ((u "title"), (VS (SStr (u "Dish"))))]))]))])); ((u "type"), (VS (SStr (u "array")))); ((u "title"), (VS (SStr (u "Table")))); ((u "rollUp"), (VA [(VS (SStr (u "number")))]))]))]))]))] false)
  [(u "create-template"); (u "--use-titles"); (u "--main-sheet-name=cafe"); (u "--schema=examples/receipt/cafe-rollup.schema"); (u "--rollup"); (u "-f"); (u "csv"); (u "-o"); (u "examples/create-template/rollup/actual")] 0
  [((Some (u "examples/create-template/rollup/actual/Tab_Dish.csv")), (line_text crlf_ [(u "Identifier,Table:Identifier,Table:Dish:Identifier,Table:Dish:Name,Table:Dish:Cost");
      (u "")]));
   ((Some (u "examples/create-template/rollup/actual/Table.csv")), (line_text crlf_ [(u "Identifier,Table:Identifier,Table:Number");
      (u "")]));
   ((Some (u "examples/create-template/rollup/actual/cafe.csv")), (line_text crlf_ [(u "Identifier,Name,Address,Table:Number");
      (u "")]))]). Qed.

(** examples/create-template/simple: create-template --use-titles --main-sheet-name=cafe --schema=examples/receipt/cafe.schema -f csv -o examples/create-template/simple/actual *)
(* create_template_simple *)
Goal True. holds (outcome_is (doc_world
    []
    [] []
    [((u "examples/receipt/cafe.schema"), (VO None [((u "$schema"), (VS (SStr (u "http://json-schema.org/draft-04/schema#")))); ((u "definitions"), (VO None [((u "TableObject"), (VO None [((u "type"), (VS (SStr (u "object")))); ((u "properties"), (VO None [((u "id"), (VO None [((u "type"), (VS (SStr (u "string")))); ((u "title"), (VS (SStr (u "Identifier"))))])); ((u "number"), (VO None [((u "type"), (VS (SStr (u "integer")))); ((u "title"), (VS (SStr (u "Number"))))])); ((u "dish"), (VO None [((u "items"), (VO (Some [((u "$ref"), (VS (SStr (u "#/definitions/DishObject"))))]) [((u "type"), (VS (SStr (u "object")))); ((u "properties"), (VO None [((u "id"), (VO None [((u "type"), (VS (SStr (u "string")))); ((u "title"), (VS (SStr (u "Identifier"))))])); ((u "name"), (VO None [((u "type"), (VS (SStr (u "string")))); ((u "title"), (VS (SStr (u "Name"))))])); ((u "cost"), (VO None [((u "type"), (VS (SStr (u "number")))); ((u "title"), (VS (SStr (u "Cost"))))]))]))])); ((u "type"), (VS (SStr (u "array")))); ((u "title"), (VS (SStr (u "Dish"))))]))]))])); ((u "DishObject"), (VO None [((u "type"), (VS (SStr (u "object")))); ((u "properties"), (VO None [((u "id"), (VO None [((u "type"), (VS (SStr (u "string")))); ((u "title"), (VS (SStr (u "Identifier"))))])); ((u "name"), (VO None [((u "type"), (VS (SStr (u "string")))); ((u "title"), (VS (SStr (u "Name"))))])); ((u "cost"), (VO None [((u "type"), (VS (SStr (u "number")))); ((u "title"), (VS (SStr (u "Cost"))))]))]))]))])); ((u "type"), (VS (SStr (u "object")))); ((u "properties"), (VO None [((u "id"), (VO None [((u "type"), (VS (SStr (u "string")))); ((u "title"), (VS (SStr (u "Identifier"))))])); ((u "name"), (VO None [((u "type"), (VS (SStr (u "string")))); ((u "title"), (VS (SStr (u "Name"))))])); ((u "address"), (VO None [((u "type"), (VS (SStr (u "string")))); ((u "title"), (VS (SStr (u "Address"))))])); ((u "table"), (VO None [((u "items"), (VO (Some [((u "$ref"), (VS (SStr (u "#/definitions/TableObject"))))]) [((u "type"), (VS (SStr (u "object")))); ((u "properties"), (VO None [((u "id"), (VO None [((u "type"), (VS (SStr (u "string")))); ((u "title"), (VS (SStr (u "Identifier"))))])); ((u "number"), (VO None [((u "type"), (VS (SStr (u "integer")))); ((u "title"), (VS (SStr (u "Number"))))])); ((u "dish"), (VO None [((u "items"), (VO (Some [((u "$ref"), (VS (SStr (u "#/definitions/DishObject"))))]) [((u "type"), (VS (SStr (u "object")))); ((u "properties"), (VO None [((u "id"), (VO None [((u "type"), (VS (SStr (u "string")))); ((u "title"), (VS (SStr (u "Identifier"))))])); ((u "name"), (VO None [((u "type"), (VS (SStr (u "string")))); ((u "title"), (VS (SStr (u "Name"))))])); ((u "cost"), (VO None [((u "type"), (VS (SStr (u "number")))); ((u "title"), (VS (SStr (u "Cost"))))]))]))])); ((u "type"), (VS (SStr (u "array")))); ((u "title"), (VS (SStr (u "Dish"))))]))]))])); ((u "type"), (VS (SStr (u "array")))); ((u "title"), (VS (SStr (u "Table"))))]))]))]))] false)
  [(u "create-template"); (u "--use-titles"); (u "--main-sheet-name=cafe"); (u "--schema=examples/receipt/cafe.schema"); (u "-f"); (u "csv"); (u "-o"); (u "examples/create-template/simple/actual")] 0
  [((Some (u "examples/create-template/simple/actual/Tab_Dish.csv")), (line_text crlf_ [(u "Identifier,Table:Identifier,Table:Dish:Identifier,Table:Dish:Name,Table:Dish:Cost");
      (u "")]));
   ((Some (u "examples/create-template/simple/actual/Table.csv")), (line_text crlf_ [(u "Identifier,Table:Identifier,Table:Number");
      (u "")]));
   ((Some (u "examples/create-template/simple/actual/cafe.csv")), (line_text crlf_ [(u "Identifier,Name,Address");
      (u "")]))]). Qed.

(** examples/create-template/truncation-length: create-template --truncation-length 5 --schema=examples/receipt/cafe.schema -f csv -o examples/create-template/truncation-length/actual *)
(* create_template_truncation_length *)
Goal True. holds (outcome_is (doc_world
    []
    [] []
    [((u "examples/receipt/cafe.schema"), (VO None [((u "$schema"), (VS (SStr (u "http://json-schema.org/draft-04/schema#")))); ((u "definitions"), (VO None [((u "TableObject"), (VO None [((u "type"), (VS (SStr (u "object")))); ((u "properties"), (VO None [((u "id"), (VO None [((u "type"), (VS (SStr (u "string")))); ((u "title"), (VS (SStr (u "Identifier"))))])); ((u "number"), (VO None [((u "type"), (VS (SStr (u "integer")))); ((u "title"), (VS (SStr (u "Number"))))])); ((u "dish"), (VO None [((u "items"), (VO (Some [((u "$ref"), (VS (SStr (u "#/definitions/DishObject"))))]) [((u "type"), (VS (SStr (u "object")))); ((u "properties"), (VO None [((u "id"), (VO None [((u "type"), (VS (SStr (u "string")))); ((u "title"), (VS (SStr (u "Identifier"))))])); ((u "name"), (VO None [((u "type"), (VS (SStr (u "string")))); ((u "title"), (VS (SStr (u "Name"))))])); ((u "cost"), (VO None [((u "type"), (VS (SStr (u "number")))); ((u "title"), (VS (SStr (u "Cost"))))]))]))])); ((u "type"), (VS (SStr (u "array")))); ((u "title"), (VS (SStr (u "Dish"))))]))]))])); ((u "DishObject"), (VO None [((u "type"), (VS (SStr (u "object")))); ((u "properties"), (VO None [((u "id"), (VO None [((u "type"), (VS (SStr (u "string")))); ((u "title"), (VS (SStr (u "Identifier"))))])); ((u "name"), (VO None [((u "type"), (VS (SStr (u "string")))); ((u "title"), (VS (SStr (u "Name"))))])); ((u "cost"), (VO None [((u "type"), (VS (SStr (u "number")))); ((u "title"), (VS (SStr (u "Cost"))))]))]))]))])); ((u "type"), (VS (SStr (u "object")))); ((u "properties"), (VO None [((u "id"), (VO None [((u "type"), (VS (SStr (u "string")))); ((u "title"), (VS (SStr (u "Identifier"))))])); ((u "name"), (VO None [((u "type"), (VS (SStr (u "string")))); ((u "title"), (VS (SStr (u "Name"))))])); ((u "address"), (VO None [((u "type"), (VS (SStr (u "string")))); ((u "title"), (VS (SStr (u "Address"))))])); ((u "table"), (VO None [((u "items"), (VO (Some [((u "$ref"), (VS (SStr (u "#/definitions/TableObject"))))]) [((u "type"), (VS (SStr (u "object")))); ((u "properties"), (VO None [((u "id"), (VO None [((u "type"), (VS (SStr (u "string")))); ((u "title"), (VS (SStr (u "Identifier"))))])); ((u "number"), (VO None [((u "type"), (VS (SStr (u "integer")))); ((u "title"), (VS (SStr (u "Number"))))])); ((u "dish"), (VO None [((u "items"), (VO (Some [((u "$ref"), (VS (SStr (u "#/definitions/DishObject"))))]) [((u "type"), (VS (SStr (u "object")))); ((u "properties"), (VO None [((u "id"), (VO None [((u "type"), (VS (SStr (u "string")))); ((u "title"), (VS (SStr (u "Identifier"))))])); ((u "name"), (VO None [((u "type"), (VS (SStr (u "string")))); ((u "title"), (VS (SStr (u "Name"))))])); ((u "cost"), (VO None [((u "type"), (VS (SStr (u "number")))); ((u "title"), (VS (SStr (u "Cost"))))]))]))])); ((u "type"), (VS (SStr (u "array")))); ((u "title"), (VS (SStr (u "Dish"))))]))]))])); ((u "type"), (VS (SStr (u "array")))); ((u "title"), (VS (SStr (u "Table"))))]))]))]))] false)
  [(u "create-template"); (u "--truncation-length"); (u "5"); (u "--schema=examples/receipt/cafe.schema"); (u "-f"); (u "csv"); (u "-o"); (u "examples/create-template/truncation-length/actual")] 0
  [((Some (u "examples/create-template/truncation-length/actual/main.csv")), (line_text crlf_ [(u "id,name,address");
      (u "")]));
   ((Some (u "examples/create-template/truncation-length/actual/table.csv")), (line_text crlf_ [(u "id,table/0/id,table/0/number");
      (u "")]));
   ((Some (u "examples/create-template/truncation-length/actual/table_dish.csv")), (line_text crlf_ [(u "id,table/0/id,table/0/dish/0/id,table/0/dish/0/name,table/0/dish/0/cost");
      (u "")]))]). Qed.

(** examples/flatten/filter: flatten --filter-field=type --filter-value=pub examples/flatten/filter/input.json -o examples/flatten/filter/actual *)
(* flatten_filter *)
Goal True. holds (outcome_is (doc_world
    [((u "examples/flatten/filter/input.json"), (line_text lf_ [(u "{");
      (u "  ""main"": [");
      (u "    {");
      (u "      ""id"": ""1"",");
      (u "      ""type"": ""cafe"",");
      (u "      ""title"": ""Cafe Open"",");
      (u "      ""dishes"": [");
      (u "        { ""title"": ""All Day Breakfast"" }");
      (u "      ],");
      (u "      ""coffee"": ""passable""");
      (u "    },");
      (u "    {");
      (u "      ""id"": ""2"",");
      (u "      ""type"": ""pub"",");
      (u "      ""title"": ""Pints R Us"",");
      (u "      ""pints"": [");
      (u "        { ""title"": ""Beer"" },");
      (u "        { ""title"": ""Larger"" }");
      (u "      ],");
      (u "      ""coke"": ""pepsi""");
      (u "    }");
      (u "  ]");
      (u "}");
      (u "")]))]
    [] []
    [] false)
  [(u "flatten"); (u "--filter-field=type"); (u "--filter-value=pub"); (u "examples/flatten/filter/input.json"); (u "-o"); (u "examples/flatten/filter/actual")] 0
  [((Some (u "examples/flatten/filter/actual/main.csv")), (line_text crlf_ [(u "id,type,title,coke");
      (u "2,pub,Pints R Us,pepsi");
      (u "")]));
   ((Some (u "examples/flatten/filter/actual/pints.csv")), (line_text crlf_ [(u "id,pints/0/title");
      (u "2,Beer");
      (u "2,Larger");
      (u "")]))]). Qed.

(** examples/flatten/line-terminator: flatten --line-terminator=LF --root-list-path=cafe --main-sheet-name=cafe --schema=examples/receipt/cafe.schema examples/receipt/normalised/expected.json -o examples/flatten/line-terminator/actual *)
(* flatten_line_terminator *)
Goal True. holds (outcome_is (doc_world
    [((u "examples/receipt/normalised/expected.json"), (line_text lf_ [(u "{");
      (u "    ""cafe"": [");
      (u "        {");
      (u "            ""id"": ""CAFE-HEALTH"",");
      (u "            ""name"": ""Healthy Cafe"",");
      (u "            ""table"": [");
      (u "                {");
      (u "                    ""id"": ""TABLE-1"",");
      (u "                    ""number"": ""1"",");
      (u "                    ""dish"": [");
      (u "                        {");
      (u "                            ""name"": ""Fish and Chips"",");
      (u "                            ""cost"": ""9.95""");
      (u "                        },");
      (u "                        {");
      (u "                            ""name"": ""Pesto Pasta Salad"",");
      (u "                            ""cost"": ""6.95""");
      (u "                        }");
      (u "                    ]");
      (u "                },");
      (u "                {");
      (u "                    ""id"": ""TABLE-2"",");
      (u "                    ""number"": ""2""");
      (u "                },");
      (u "                {");
      (u "                    ""id"": ""TABLE-3"",");
      (u "                    ""number"": ""3"",");
      (u "                    ""dish"": [");
      (u "                        {");
      (u "                            ""name"": ""Fish and Chips"",");
      (u "                            ""cost"": ""9.95""");
      (u "                        }");
      (u "                    ]");
      (u "                }");
      (u "            ]");
      (u "        },");
      (u "        {");
      (u "            ""id"": ""CAFE-VEG"",");
      (u "            ""name"": ""Vegetarian Cafe"",");
      (u "            ""table"": [");
      (u "                {");
      (u "                    ""id"": ""TABLE-16"",");
      (u "                    ""number"": ""16"",");
      (u "                    ""dish"": [");
      (u "                        {");
      (u "                            ""name"": ""Large Glass Sauvignon"",");
      (u "                            ""cost"": ""5.95""");
      (u "                        }");
      (u "                    ]");
      (u "                },");
      (u "                {");
      (u "                    ""id"": ""TABLE-17"",");
      (u "                    ""number"": ""17""");
      (u "                }");
      (u "            ]");
      (u "        }");
      (u "    ]");
      (u "}");
      (u "")]))]
    [] []
    [((u "examples/receipt/cafe.schema"), (VO None [((u "$schema"), (VS (SStr (u "http://json-schema.org/draft-04/schema#")))); ((u "definitions"), (VO None [((u "TableObject"), (VO None [((u "type"), (VS (SStr (u "object")))); ((u "properties"), (VO None [((u "id"), (VO None [((u "type"), (VS (SStr (u "string")))); ((u "title"), (VS (SStr (u "Identifier"))))])); ((u "number"), (VO None [((u "type"), (VS (SStr (u "integer")))); ((u "title"), (VS (SStr (u "Number"))))])); ((u "dish"), (VO None [((u "items"), (VO (Some [((u "$ref"), (VS (SStr (u "#/definitions/DishObject"))))]) [((u "type"), (VS (SStr (u "object")))); ((u "properties"), (VO None [((u "id"), (VO None [((u "type"), (VS (SStr (u "string")))); ((u "title"), (VS (SStr (u "Identifier"))))])); ((u "name"), (VO None [((u "type"), (VS (SStr (u "string")))); ((u "title"), (VS (SStr (u "Name"))))])); ((u "cost"), (VO None [((u "type"), (VS (SStr (u "number")))); ((u "title"), (VS (SStr (u "Cost"))))]))]))])); ((u "type"), (VS (SStr (u "array")))); ((u "title"), (VS (SStr (u "Dish"))))]))]))])); ((u "DishObject"), (VO None [((u "type"), (VS (SStr (u "object")))); ((u "properties"), (VO None [((u "id"), (VO None [((u "type"), (VS (SStr (u "string")))); ((u "title"), (VS (SStr (u "Identifier"))))])); ((u "name"), (VO None [((u "type"), (VS (SStr (u "string")))); ((u "title"), (VS (SStr (u "Name"))))])); ((u "cost"), (VO None [((u "type"), (VS (SStr (u "number")))); ((u "title"), (VS (SStr (u "Cost"))))]))]))]))])); ((u "type"), (VS (SStr (u "object")))); ((u "properties"), (VO None [((u "id"), (VO None [((u "type"), (VS (SStr (u "string")))); ((u "title"), (VS (SStr (u "Identifier"))))])); ((u "name"), (VO None [((u "type"), (VS (SStr (u "string")))); ((u "title"), (VS (SStr (u "Name"))))])); ((u "address"), (VO None [((u "type"), (VS (SStr (u "string")))); ((u "title"), (VS (SStr (u "Address"))))])); ((u "table"), (VO None [((u "items"), (VO (Some [((u "$ref"), (VS (SStr (u "#/definitions/TableObject"))))]) [((u "type"), (VS (SStr (u "object")))); ((u "properties"), (VO None [((u "id"), (VO None [((u "type"), (VS (SStr (u "string")))); ((u "title"), (VS (SStr (u "Identifier"))))])); ((u "number"), (VO None [((u "type"), (VS (SStr (u "integer")))); ((u "title"), (VS (SStr (u "Number"))))])); ((u "dish"), (VO None [((u "items"), (VO (Some [((u "$ref"), (VS (SStr (u "#/definitions/DishObject"))))]) [((u "type"), (VS (SStr (u "object")))); ((u "properties"), (VO None [((u "id"), (VO None [((u "type"), (VS (SStr (u "string")))); ((u "title"), (VS (SStr (u "Identifier"))))])); ((u "name"), (VO None [((u "type"), (VS (SStr (u "string")))); ((u "title"), (VS (SStr (u "Name"))))])); ((u "cost"), (VO None [((u "type"), (VS (SStr (u "number")))); ((u "title"), (VS (SStr (u "Cost"))))]))]))])); ((u "type"), (VS (SStr (u "array")))); ((u "title"), (VS (SStr (u "Dish"))))]))]))])); ((u "type"), (VS (SStr (u "array")))); ((u "title"), (VS (SStr (u "Table"))))]))]))]))] false)
  [(u "flatten"); (u "--line-terminator=LF"); (u "--root-list-path=cafe"); (u "--main-sheet-name=cafe"); (u "--schema=examples/receipt/cafe.schema"); (u "examples/receipt/normalised/expected.json"); (u "-o"); (u "examples/flatten/line-terminator/actual")] 0
  [((Some (u "examples/flatten/line-terminator/actual/cafe.csv")), (line_text lf_ [(u "id,name,address");
      (u "CAFE-HEALTH,Healthy Cafe,");
      (u "CAFE-VEG,Vegetarian Cafe,");
      (u "")]));
   ((Some (u "examples/flatten/line-terminator/actual/tab_dish.csv")), (line_text lf_ [(u "id,table/0/id,table/0/dish/0/id,table/0/dish/0/name,table/0/dish/0/cost");
      (u "CAFE-HEALTH,TABLE-1,,Fish and Chips,9.95");
      (u "CAFE-HEALTH,TABLE-1,,Pesto Pasta Salad,6.95");
      (u "CAFE-HEALTH,TABLE-3,,Fish and Chips,9.95");
      (u "CAFE-VEG,TABLE-16,,Large Glass Sauvignon,5.95");
      (u "")]));
   ((Some (u "examples/flatten/line-terminator/actual/table.csv")), (line_text lf_ [(u "id,table/0/id,table/0/number");
      (u "CAFE-HEALTH,TABLE-1,1");
      (u "CAFE-HEALTH,TABLE-2,2");
      (u "CAFE-HEALTH,TABLE-3,3");
      (u "CAFE-VEG,TABLE-16,16");
      (u "CAFE-VEG,TABLE-17,17");
      (u "")]))]). Qed.

(** examples/flatten/preserve-fields: flatten --preserve-fields examples/flatten/preserve-fields/fields_to_preserve.csv examples/flatten/preserve-fields/input.json -o examples/flatten/preserve-fields/actual *)
(* flatten_preserve_fields *)
Goal True. holds (outcome_is (doc_world
    [((u "examples/flatten/preserve-fields/fields_to_preserve.csv"), (line_text lf_ [(u "id");
      (u "type");
      (u "title");
      (u "pints");
      (u "coke");
      (u "dishes/title");
      (u "dishes/price");
      (u "dishes/allergens/label")]));
     ((u "examples/flatten/preserve-fields/input.json"), (line_text lf_ [(u "{");
      (u "  ""main"": [");
      (u "    {");
      (u "      ""id"": ""1"",");
      (u "      ""type"": ""cafe"",");
      (u "      ""title"": ""Cafe Open"",");
      (u "      ""dishes"": [");
      (u "        {");
      (u "          ""title"": ""All Day Breakfast"",");
      (u "          ""allergens"": {");
      (u "            ""freefrom"": [""dairy"", ""eggs""],");
      (u "            ""contains"": [""gluten"", ""soy""],");
      (u "            ""label"": [""vegan"", ""vegetarian""]");
      (u "          }");
      (u "        },");
      (u "        {");
      (u "          ""title"": ""Jack's Soup"",");
      (u "          ""allergens"": {");
      (u "            ""freefrom"": [""onion"", ""garlic""],");
      (u "            ""contains"": [""dairy""],");
      (u "            ""label"": [""vegetarian""]");
      (u "          }");
      (u "        }");
      (u "      ],");
      (u "      ""coffee"": ""passable""");
      (u "    },");
      (u "    {");
      (u "      ""id"": ""2"",");
      (u "      ""type"": ""pub"",");
      (u "      ""title"": ""Pints R Us"",");
      (u "      ""pints"": [");
      (u "        { ""title"": ""Beer"", ""price"": ""2gbp"" },");
      (u "        { ""title"": ""Larger"" }");
      (u "      ],");
      (u "      ""coke"": ""pepsi""");
      (u "    }");
      (u "  ]");
      (u "}");
      (u "")]))]
    [] []
    [] false)
  [(u "flatten"); (u "--preserve-fields"); (u "examples/flatten/preserve-fields/fields_to_preserve.csv"); (u "examples/flatten/preserve-fields/input.json"); (u "-o"); (u "examples/flatten/preserve-fields/actual")] 0
  [((Some (u "examples/flatten/preserve-fields/actual/dishes.csv")), (line_text crlf_ [(u "id,dishes/0/title,dishes/0/allergens/label");
      (u "1,All Day Breakfast,vegan;vegetarian");
      (u "1,Jack's Soup,vegetarian");
      (u "")]));
   ((Some (u "examples/flatten/preserve-fields/actual/main.csv")), (line_text crlf_ [(u "id,type,title,coke");
      (u "1,cafe,Cafe Open,");
      (u "2,pub,Pints R Us,pepsi");
      (u "")]));
   ((Some (u "examples/flatten/preserve-fields/actual/pints.csv")), (line_text crlf_ [(u "id,pints/0/title,pints/0/price");
      (u "2,Beer,2gbp");
      (u "2,Larger,");
      (u "")]))]). Qed.

(** examples/flatten/remove-empty-schema-columns: flatten --remove-empty-schema-columns --root-list-path=cafe --main-sheet-name=cafe --schema=examples/receipt/cafe.schema examples/flatten/remove-empty-schema-columns/input.json -o examples/flatten/remove-empty-schema-columns/actual *)
(* flatten_remove_empty_schema_columns *)
Goal True. holds (outcome_is (doc_world
    [((u "examples/flatten/remove-empty-schema-columns/input.json"), (line_text lf_ [(u "{");
      (u "    ""cafe"": [");
      (u "        {");
      (u "            ""id"": ""CAFE-HEALTH"",");
      (u "            ""name"": ""Healthy Cafe"",");
      (u "            ""table"": [");
      (u "                {");
      (u "                    ""id"": ""TABLE-1"",");
      (u "                    ""number"": ""1""");
      (u "                },");
      (u "                {");
      (u "                    ""id"": ""TABLE-2"",");
      (u "                    ""number"": ""2""");
      (u "                },");
      (u "                {");
      (u "                    ""id"": ""TABLE-3"",");
      (u "                    ""number"": ""3""");
      (u "                }");
      (u "            ]");
      (u "        },");
      (u "        {");
      (u "            ""id"": ""CAFE-VEG"",");
      (u "            ""name"": ""Vegetarian Cafe"",");
      (u "            ""table"": [");
      (u "                {");
      (u "                    ""id"": ""TABLE-16"",");
      (u "                    ""number"": ""16""");
      (u "                },");
      (u "                {");
      (u "                    ""id"": ""TABLE-17"",");
      (u "                    ""number"": ""17""");
      (u "                }");
      (u "            ]");
      (u "        }");
      (u "    ]");
      (u "}");
      (u "")]))]
    [] []
    [((u "examples/receipt/cafe.schema"), (VO None [((u "$schema"), (VS (SStr (u "http://json-schema.org/draft-04/schema#")))); ((u "definitions"), (VO None [((u "TableObject"), (VO None [((u "type"), (VS (SStr (u "object")))); ((u "properties"), (VO None [((u "id"), (VO None [((u "type"), (VS (SStr (u "string")))); ((u "title"), (VS (SStr (u "Identifier"))))])); ((u "number"), (VO None [((u "type"), (VS (SStr (u "integer")))); ((u "title"), (VS (SStr (u "Number"))))])); ((u "dish"), (VO None [((u "items"), (VO (Some [((u "$ref"), (VS (SStr (u "#/definitions/DishObject"))))]) [((u "type"), (VS (SStr (u "object")))); ((u "properties"), (VO None [((u "id"), (VO None [((u "type"), (VS (SStr (u "string")))); ((u "title"), (VS (SStr (u "Identifier"))))])); ((u "name"), (VO None [((u "type"), (VS (SStr (u "string")))); ((u "title"), (VS (SStr (u "Name"))))])); ((u "cost"), (VO None [((u "type"), (VS (SStr (u "number")))); ((u "title"), (VS (SStr (u "Cost"))))]))]))])); ((u "type"), (VS (SStr (u "array")))); ((u "title"), (VS (SStr (u "Dish"))))]))]))])); ((u "DishObject"), (VO None [((u "type"), (VS (SStr (u "object")))); ((u "properties"), (VO None [((u "id"), (VO None [((u "type"), (VS (SStr (u "string")))); ((u "title"), (VS (SStr (u "Identifier"))))])); ((u "name"), (VO None [((u "type"), (VS (SStr (u "string")))); ((u "title"), (VS (SStr (u "Name"))))])); ((u "cost"), (VO None [((u "type"), (VS (SStr (u "number")))); ((u "title"), (VS (SStr (u "Cost"))))]))]))]))])); ((u "type"), (VS (SStr (u "object")))); ((u "properties"), (VO None [((u "id"), (VO None [((u "type"), (VS (SStr (u "string")))); ((u "title"), (VS (SStr (u "Identifier"))))])); ((u "name"), (VO None [((u "type"), (VS (SStr (u "string")))); ((u "title"), (VS (SStr (u "Name"))))])); ((u "address"), (VO None [((u "type"), (VS (SStr (u "string")))); ((u "title"), (VS (SStr (u "Address"))))])); ((u "table"), (VO None [((u "items"), (VO (Some [((u "$ref"), (VS (SStr (u "#/definitions/TableObject"))))]) [((u "type"), (VS (SStr (u "object")))); ((u "properties"), (VO None [((u "id"), (VO None [((u "type"), (VS (SStr (u "string")))); ((u "title"), (VS (SStr (u "Identifier"))))])); ((u "number"), (VO None [((u "type"), (VS (SStr (u "integer")))); ((u "title"), (VS (SStr (u "Number"))))])); ((u "dish"), (VO None [((u "items"), (VO (Some [((u "$ref"), (VS (SStr (u "#/definitions/DishObject"))))]) [((u "type"), (VS (SStr (u "object")))); ((u "properties"), (VO None [((u "id"), (VO None [((u "type"), (VS (SStr (u "string")))); ((u "title"), (VS (SStr (u "Identifier"))))])); ((u "name"), (VO None [((u "type"), (VS (SStr (u "string")))); ((u "title"), (VS (SStr (u "Name"))))])); ((u "cost"), (VO None [((u "type"), (VS (SStr (u "number")))); ((u "title"), (VS (SStr (u "Cost"))))]))]))])); ((u "type"), (VS (SStr (u "array")))); ((u "title"), (VS (SStr (u "Dish"))))]))]))])); ((u "type"), (VS (SStr (u "array")))); ((u "title"), (VS (SStr (u "Table"))))]))]))]))] false)
  [(u "flatten"); (u "--remove-empty-schema-columns"); (u "--root-list-path=cafe"); (u "--main-sheet-name=cafe"); (u "--schema=examples/receipt/cafe.schema"); (u "examples/flatten/remove-empty-schema-columns/input.json"); (u "-o"); (u "examples/flatten/remove-empty-schema-columns/actual")] 0
  [((Some (u "examples/flatten/remove-empty-schema-columns/actual/cafe.csv")), (line_text crlf_ [(u "id,name");
      (u "CAFE-HEALTH,Healthy Cafe");
      (u "CAFE-VEG,Vegetarian Cafe");
      (u "")]));
   ((Some (u "examples/flatten/remove-empty-schema-columns/actual/table.csv")), (line_text crlf_ [(u "id,table/0/id,table/0/number");
      (u "CAFE-HEALTH,TABLE-1,1");
      (u "CAFE-HEALTH,TABLE-2,2");
      (u "CAFE-HEALTH,TABLE-3,3");
      (u "CAFE-VEG,TABLE-16,16");
      (u "CAFE-VEG,TABLE-17,17");
      (u "")]))]). Qed.

(** examples/flatten/rollup/badschema: flatten --root-list-path=cafe --use-titles --main-sheet-name=cafe --rollup=owners --schema=examples/flatten/rollup/badschema/cafe-rollup.schema examples/flatten/rollup/input.json -o examples/flatten/rollup/badschema/actual *)
(* flatten_rollup_badschema *)
Goal True. holds (outcome_is (doc_world
    [((u "examples/flatten/rollup/input.json"), (line_text lf_ [(u "{");
      (u "  ""cafe"": [");
      (u "    {");
      (u "      ""id"": ""1"",");
      (u "      ""type"": ""cafe"",");
      (u "      ""title"": ""Cafe Open"",");
      (u "      ""owners"": [");
      (u "        {");
      (u "          ""firstname"": ""Clark"",");
      (u "          ""lastname"": ""Kent"",");
      (u "          ""email"": ""contact@cafeopen.example""");
      (u "        }");
      (u "      ],");
      (u "      ""dishes"": [");
      (u "        {");
      (u "          ""id"": ""bfast"",");
      (u "          ""title"": ""All Day Breakfast"",");
      (u "          ""allergens"": {");
      (u "            ""freefrom"": [""dairy"", ""eggs""],");
      (u "            ""contains"": [""gluten"", ""soy""],");
      (u "            ""label"": [""vegan"", ""vegetarian""]");
      (u "          }");
      (u "        },");
      (u "        {");
      (u "          ""id"": ""soup"",");
      (u "          ""title"": ""Jack's Soup"",");
      (u "          ""allergens"": {");
      (u "            ""freefrom"": [""onion"", ""garlic""],");
      (u "            ""contains"": [""dairy""],");
      (u "            ""label"": [""vegetarian""]");
      (u "          }");
      (u "        }");
      (u "      ],");
      (u "      ""coffee"": ""passable""");
      (u "    },");
      (u "    {");
      (u "      ""id"": ""2"",");
      (u "      ""type"": ""pub"",");
      (u "      ""title"": ""Pints R Us"",");
      (u "      ""owners"": [");
      (u "        {");
      (u "          ""firstname"": ""Jim"",");
      (u "          ""lastname"": ""Kirk"",");
      (u "          ""email"": ""pintsrus@protonmail.com""");
      (u "        }");
      (u "      ],");
      (u "      ""coke"": ""pepsi""");
      (u "    }");
      (u "  ]");
      (u "}");
      (u "")]))]
    [] []
    [((u "examples/flatten/rollup/badschema/cafe-rollup.schema"), (VO None [((u "$schema"), (VS (SStr (u "http://json-schema.org/draft-04/schema#")))); ((u "definitions"), (VO None [((u "OwnerObject"), (VO None [((u "type"), (VS (SStr (u "object")))); ((u "properties"), (VO None [((u "firstname"), (VO None [((u "type"), (VS (SStr (u "string")))); ((u "title"), (VS (SStr (u "First name"))))])); ((u "lastname"), (VO None [((u "type"), (VS (SStr (u "string")))); ((u "title"), (VS (SStr (u "Last name"))))])); ((u "email"), (VO None [((u "type"), (VS (SStr (u "string")))); ((u "title"), (VS (SStr (u "Email"))))]))]))])); ((u "DishObject"), (VO None [((u "type"), (VS (SStr (u "object")))); ((u "properties"), (VO None [((u "id"), (VO None [((u "type"), (VS (SStr (u "string")))); ((u "title"), (VS (SStr (u "Identifier"))))])); ((u "title"), (VO None [((u "type"), (VS (SStr (u "string")))); ((u "title"), (VS (SStr (u "Name"))))])); ((u "allergens"), (VO None [((u "type"), (VS (SStr (u "object")))); ((u "title"), (VS (SStr (u "Allergens")))); ((u "properties"), (VO None [((u "freefrom"), (VO None [((u "type"), (VS (SStr (u "array")))); ((u "title"), (VS (SStr (u "Free from")))); ((u "items"), (VO None [((u "type"), (VS (SStr (u "string"))))]))])); ((u "contains"), (VO None [((u "type"), (VS (SStr (u "array")))); ((u "title"), (VS (SStr (u "Contains")))); ((u "items"), (VO None [((u "type"), (VS (SStr (u "string"))))]))])); ((u "label"), (VO None [((u "type"), (VS (SStr (u "array")))); ((u "title"), (VS (SStr (u "Label")))); ((u "items"), (VO None [((u "type"), (VS (SStr (u "string"))))]))]))]))]))]))]))])); ((u "type"), (VS (SStr (u "object")))); ((u "properties"), (VO None [((u "id"), (VO None [((u "type"), (VS (SStr (u "string")))); ((u "title"), (VS (SStr (u "Identifier"))))])); ((u "type"), (VO None [((u "type"), (VS (SStr (u "string")))); ((u "title"), (VS (SStr (u "Type"))))])); ((u "title"), (VO None [((u "type"), (VS (SStr (u "string")))); ((u "title"), (VS (SStr (u "Name"))))])); ((u "address"), (VO None [((u "type"), (VS (SStr (u "string")))); ((u "title"), (VS (SStr (u "Address"))))])); ((u "owners"), (VO None [((u "items"), (VO (Some [((u "$ref"), (VS (SStr (u "#/definitions/OwnerObject"))))]) [((u "type"), (VS (SStr (u "object")))); ((u "properties"), (VO None [((u "firstname"), (VO None [((u "type"), (VS (SStr (u "string")))); ((u "title"), (VS (SStr (u "First name"))))])); ((u "lastname"), (VO None [((u "type"), (VS (SStr (u "string")))); ((u "title"), (VS (SStr (u "Last name"))))])); ((u "email"), (VO None [((u "type"), (VS (SStr (u "string")))); ((u "title"), (VS (SStr (u "Email"))))]))]))])); ((u "type"), (VS (SStr (u "array")))); ((u "title"), (VS (SStr (u "Owner"))))])); ((u "dishes"), (VO None [((u "items"), (VO (Some [((u "$ref"), (VS (SStr (u "#/definitions/DishObject"))))]) [((u "type"), (VS (SStr (u "object")))); ((u "properties"), (VO None [((u "id"), (VO None [((u "type"), (VS (SStr (u "string")))); ((u "title"), (VS (SStr (u "Identifier"))))])); ((u "title"), (VO None [((u "type"), (VS (SStr (u "string")))); ((u "title"), (VS (SStr (u "Name"))))])); ((u "allergens"), (VO None [((u "type"), (VS (SStr (u "object")))); ((u "title"), (VS (SStr (u "Allergens")))); ((u "properties"), (VO None [((u "freefrom"), (VO None [((u "type"), (VS (SStr (u "array")))); ((u "title"), (VS (SStr (u "Free from")))); ((u "items"), (VO None [((u "type"), (VS (SStr (u "string"))))]))])); ((u "contains"), (VO None [((u "type"), (VS (SStr (u "array")))); ((u "title"), (VS (SStr (u "Contains")))); ((u "items"), (VO None [((u "type"), (VS (SStr (u "string"))))]))])); ((u "label"), (VO None [((u "type"), (VS (SStr (u "array")))); ((u "title"), (VS (SStr (u "Label")))); ((u "items"), (VO None [((u "type"), (VS (SStr (u "string"))))]))]))]))]))]))])); ((u "type"), (VS (SStr (u "array")))); ((u "title"), (VS (SStr (u "Dish"))))])); ((u "coffee"), (VO None [((u "type"), (VS (SStr (u "string")))); ((u "title"), (VS (SStr (u "Coffee quality"))))])); ((u "coke"), (VO None [((u "type"), (VS (SStr (u "string")))); ((u "title"), (VS (SStr (u "Type of coke"))))]))]))]))] false)
  [(u "flatten"); (u "--root-list-path=cafe"); (u "--use-titles"); (u "--main-sheet-name=cafe"); (u "--rollup=owners"); (u "--schema=examples/flatten/rollup/badschema/cafe-rollup.schema"); (u "examples/flatten/rollup/input.json"); (u "-o"); (u "examples/flatten/rollup/badschema/actual")] 0
  [((Some (u "examples/flatten/rollup/badschema/actual/Dish.csv")), (line_text crlf_ [(u "Identifier,Dish:Identifier,Dish:Name,Dish:Allergens:Free from,Dish:Allergens:Contains,Dish:Allergens:Label");
      (u "1,bfast,All Day Breakfast,dairy;eggs,gluten;soy,vegan;vegetarian");
      (u "1,soup,Jack's Soup,onion;garlic,dairy,vegetarian");
      (u "")]));
   ((Some (u "examples/flatten/rollup/badschema/actual/Owner.csv")), (line_text crlf_ [(u "Identifier,Owner:First name,Owner:Last name,Owner:Email");
      (u "1,Clark,Kent,contact@cafeopen.example");
      (u "2,Jim,Kirk,pintsrus@protonmail.com");
      (u "")]));
   ((Some (u "examples/flatten/rollup/badschema/actual/cafe.csv")), (line_text crlf_ [(u "Identifier,Type,Name,Address,Coffee quality,Type of coke,Owner:First name,Owner:Last name,Owner:Email");
      (u "1,cafe,Cafe Open,,passable,,Clark,Kent,contact@cafeopen.example");
      (u "2,pub,Pints R Us,,,pepsi,Jim,Kirk,pintsrus@protonmail.com");
      (u "")]))]). Qed.

(** examples/flatten/rollup/direct: flatten --root-list-path=cafe --main-sheet-name=cafe --rollup=owners examples/flatten/rollup/input.json -o examples/flatten/rollup/direct/actual *)
(* flatten_rollup_direct *)
Goal True. holds (outcome_is (doc_world
    [((u "examples/flatten/rollup/input.json"), (line_text lf_ [(u "{");
      (u "  ""cafe"": [");
      (u "    {");
      (u "      ""id"": ""1"",");
      (u "      ""type"": ""cafe"",");
      (u "      ""title"": ""Cafe Open"",");
      (u "      ""owners"": [");
      (u "        {");
      (u "          ""firstname"": ""Clark"",");
      (u "          ""lastname"": ""Kent"",");
      (u "          ""email"": ""contact@cafeopen.example""");
      (u "        }");
      (u "      ],");
      (u "      ""dishes"": [");
      (u "        {");
      (u "          ""id"": ""bfast"",");
      (u "          ""title"": ""All Day Breakfast"",");
      (u "          ""allergens"": {");
      (u "            ""freefrom"": [""dairy"", ""eggs""],");
      (u "            ""contains"": [""gluten"", ""soy""],");
      (u "            ""label"": [""vegan"", ""vegetarian""]");
      (u "          }");
      (u "        },");
      (u "        {");
      (u "          ""id"": ""soup"",");
      (u "          ""title"": ""Jack's Soup"",");
      (u "          ""allergens"": {");
      (u "            ""freefrom"": [""onion"", ""garlic""],");
      (u "            ""contains"": [""dairy""],");
      (u "            ""label"": [""vegetarian""]");
      (u "          }");
      (u "        }");
      (u "      ],");
      (u "      ""coffee"": ""passable""");
      (u "    },");
      (u "    {");
      (u "      ""id"": ""2"",");
      (u "      ""type"": ""pub"",");
      (u "      ""title"": ""Pints R Us"",");
      (u "      ""owners"": [");
      (u "        {");
      (u "          ""firstname"": ""Jim"",");
      (u "          ""lastname"": ""Kirk"",");
      (u "          ""email"": ""pintsrus@protonmail.com""");
      (u "        }");
      (u "      ],");
      (u "      ""coke"": ""pepsi""");
      (u "    }");
      (u "  ]");
      (u "}");
      (u "")]))]
    [] []
    [] false)
  [(u "flatten"); (u "--root-list-path=cafe"); (u "--main-sheet-name=cafe"); (u "--rollup=owners"); (u "examples/flatten/rollup/input.json"); (u "-o"); (u "examples/flatten/rollup/direct/actual")] 0
  [((Some (u "examples/flatten/rollup/direct/actual/cafe.csv")), (line_text crlf_ [(u "id,type,title,owners/0/firstname,owners/0/lastname,owners/0/email,coffee,coke");
      (u "1,cafe,Cafe Open,Clark,Kent,contact@cafeopen.example,passable,");
      (u "2,pub,Pints R Us,Jim,Kirk,pintsrus@protonmail.com,,pepsi");
      (u "")]));
   ((Some (u "examples/flatten/rollup/direct/actual/dishes.csv")), (line_text crlf_ [(u "id,dishes/0/id,dishes/0/title,dishes/0/allergens/freefrom,dishes/0/allergens/contains,dishes/0/allergens/label");
      (u "1,bfast,All Day Breakfast,dairy;eggs,gluten;soy,vegan;vegetarian");
      (u "1,soup,Jack's Soup,onion;garlic,dairy,vegetarian");
      (u "")]));
   ((Some (u "examples/flatten/rollup/direct/actual/owners.csv")), (line_text crlf_ [(u "id,owners/0/firstname,owners/0/lastname,owners/0/email");
      (u "1,Clark,Kent,contact@cafeopen.example");
      (u "2,Jim,Kirk,pintsrus@protonmail.com");
      (u "")]))]). Qed.

(** examples/flatten/rollup/file: flatten --root-list-path=cafe --main-sheet-name=cafe --rollup=examples/flatten/rollup/file/fields_to_rollup.txt examples/flatten/rollup/input.json -o examples/flatten/rollup/file/actual *)
(* flatten_rollup_file *)
Goal True. holds (outcome_is (doc_world
    [((u "examples/flatten/rollup/file/fields_to_rollup.txt"), (u "owners"));
     ((u "examples/flatten/rollup/input.json"), (line_text lf_ [(u "{");
      (u "  ""cafe"": [");
      (u "    {");
      (u "      ""id"": ""1"",");
      (u "      ""type"": ""cafe"",");
      (u "      ""title"": ""Cafe Open"",");
      (u "      ""owners"": [");
      (u "        {");
      (u "          ""firstname"": ""Clark"",");
      (u "          ""lastname"": ""Kent"",");
      (u "          ""email"": ""contact@cafeopen.example""");
      (u "        }");
      (u "      ],");
      (u "      ""dishes"": [");
      (u "        {");
      (u "          ""id"": ""bfast"",");
      (u "          ""title"": ""All Day Breakfast"",");
      (u "          ""allergens"": {");
      (u "            ""freefrom"": [""dairy"", ""eggs""],");
      (u "            ""contains"": [""gluten"", ""soy""],");
      (u "            ""label"": [""vegan"", ""vegetarian""]");
      (u "          }");
      (u "        },");
      (u "        {");
      (u "          ""id"": ""soup"",");
      (u "          ""title"": ""Jack's Soup"",");
      (u "          ""allergens"": {");
      (u "            ""freefrom"": [""onion"", ""garlic""],");
      (u "            ""contains"": [""dairy""],");
      (u "            ""label"": [""vegetarian""]");
      (u "          }");
      (u "        }");
      (u "      ],");
      (u "      ""coffee"": ""passable""");
      (u "    },");
      (u "    {");
      (u "      ""id"": ""2"",");
      (u "      ""type"": ""pub"",");
      (u "      ""title"": ""Pints R Us"",");
      (u "      ""owners"": [");
      (u "        {");
      (u "          ""firstname"": ""Jim"",");
      (u "          ""lastname"": ""Kirk"",");
      (u "          ""email"": ""pintsrus@protonmail.com""");
      (u "        }");
      (u "      ],");
      (u "      ""coke"": ""pepsi""");
      (u "    }");
      (u "  ]");
      (u "}");
      (u "")]))]
    [] []
    [] false)
  [(u "flatten"); (u "--root-list-path=cafe"); (u "--main-sheet-name=cafe"); (u "--rollup=examples/flatten/rollup/file/fields_to_rollup.txt"); (u "examples/flatten/rollup/input.json"); (u "-o"); (u "examples/flatten/rollup/file/actual")] 0
  [((Some (u "examples/flatten/rollup/file/actual/cafe.csv")), (line_text crlf_ [(u "id,type,title,owners/0/firstname,owners/0/lastname,owners/0/email,coffee,coke");
      (u "1,cafe,Cafe Open,Clark,Kent,contact@cafeopen.example,passable,");
      (u "2,pub,Pints R Us,Jim,Kirk,pintsrus@protonmail.com,,pepsi");
      (u "")]));
   ((Some (u "examples/flatten/rollup/file/actual/dishes.csv")), (line_text crlf_ [(u "id,dishes/0/id,dishes/0/title,dishes/0/allergens/freefrom,dishes/0/allergens/contains,dishes/0/allergens/label");
      (u "1,bfast,All Day Breakfast,dairy;eggs,gluten;soy,vegan;vegetarian");
      (u "1,soup,Jack's Soup,onion;garlic,dairy,vegetarian");
      (u "")]));
   ((Some (u "examples/flatten/rollup/file/actual/owners.csv")), (line_text crlf_ [(u "id,owners/0/firstname,owners/0/lastname,owners/0/email");
      (u "1,Clark,Kent,contact@cafeopen.example");
      (u "2,Jim,Kirk,pintsrus@protonmail.com");
      (u "")]))]). Qed.

(** examples/flatten/rollup/schema: flatten --root-list-path=cafe --use-titles --main-sheet-name=cafe --rollup --schema=examples/flatten/rollup/schema/cafe-rollup.schema examples/flatten/rollup/input.json -o examples/flatten/rollup/schema/actual *)
(* flatten_rollup_schema *)
Goal True. holds (outcome_is (doc_world
    [((u "examples/flatten/rollup/input.json"), (line_text lf_ [(u "{");
      (u "  ""cafe"": [");
      (u "    {");
      (u "      ""id"": ""1"",");
      (u "      ""type"": ""cafe"",");
      (u "      ""title"": ""Cafe Open"",");
      (u "      ""owners"": [");
      (u "        {");
      (u "          ""firstname"": ""Clark"",");
      (u "          ""lastname"": ""Kent"",");
      (u "          ""email"": ""contact@cafeopen.example""");
      (u "        }");
      (u "      ],");
      (u "      ""dishes"": [");
      (u "        {");
      (u "          ""id"": ""bfast"",");
      (u "          ""title"": ""All Day Breakfast"",");
      (u "          ""allergens"": {");
      (u "            ""freefrom"": [""dairy"", ""eggs""],");
      (u "            ""contains"": [""gluten"", ""soy""],");
      (u "            ""label"": [""vegan"", ""vegetarian""]");
      (u "          }");
      (u "        },");
      (u "        {");
      (u "          ""id"": ""soup"",");
      (u "          ""title"": ""Jack's Soup"",");
      (u "          ""allergens"": {");
      (u "            ""freefrom"": [""onion"", ""garlic""],");
      (u "            ""contains"": [""dairy""],");
      (u "            ""label"": [""vegetarian""]");
      (u "          }");
      (u "        }");
      (u "      ],");
      (u "      ""coffee"": ""passable""");
      (u "    },");
      (u "    {");
      (u "      ""id"": ""2"",");
      (u "      ""type"": ""pub"",");
      (u "      ""title"": ""Pints R Us"",");
      (u "      ""owners"": [");
      (u "        {");
      (u "          ""firstname"": ""Jim"",");
      (u "          ""lastname"": ""Kirk"",");
      (u "          ""email"": ""pintsrus@protonmail.com""");
      (u "        }");
      (u "      ],");
      (u "      ""coke"": ""pepsi""");
      (u "    }");
      (u "  ]");
      (u "}");
      (u "")]))]
    [] []
    [((u "examples/flatten/rollup/schema/cafe-rollup.schema"), (VO None [((u "$schema"), (VS (SStr (u "http://json-schema.org/draft-04/schema#")))); ((u "definitions"), (VO None [((u "OwnerObject"), (VO None [((u "type"), (VS (SStr (u "object")))); ((u "properties"), (VO None [((u "firstname"), (VO None [((u "type"), (VS (SStr (u "string")))); ((u "title"), (VS (SStr (u "First name"))))])); ((u "lastname"), (VO None [((u "type"), (VS (SStr (u "string")))); ((u "title"), (VS (SStr (u "Last name"))))])); ((u "email"), (VO None [((u "type"), (VS (SStr (u "string")))); ((u "title"), (VS (SStr (u "Email"))))]))]))])); ((u "DishObject"), (VO None [((u "type"), (VS (SStr (u "object")))); ((u "properties"), (VO None [((u "id"), (VO None [((u "type"), (VS (SStr (u "string")))); ((u "title"), (VS (SStr (u "Identifier"))))])); ((u "title"), (VO None [((u "type"), (VS (SStr (u "string")))); ((u "title"), (VS (SStr (u "Name"))))])); ((u "allergens"), (VO None [((u "type"), (VS (SStr (u "object")))); ((u "title"), (VS (SStr (u "Allergens")))); ((u "properties"), (VO None [((u "freefrom"), (VO None [((u "type"), (VS (SStr (u "array")))); ((u "title"), (VS (SStr (u "Free from")))); ((u "items"), (VO None [((u "type"), (VS (SStr (u "string"))))]))])); ((u "contains"), (VO None [((u "type"), (VS (SStr (u "array")))); ((u "title"), (VS (SStr (u "Contains")))); ((u "items"), (VO None [((u "type"), (VS (SStr (u "string"))))]))])); ((u "label"), (VO None [((u "type"), (VS (SStr (u "array")))); ((u "title"), (VS (SStr (u "Label")))); ((u "items"), (VO None [((u "type"), (VS (SStr (u "string"))))]))]))]))]))]))]))])); ((u "type"), (VS (SStr (u "object")))); ((u "properties"), (VO None [((u "id"), (VO None [((u "type"), (VS (SStr (u "string")))); ((u "title"), (VS (SStr (u "Identifier"))))])); ((u "type"), (VO None [((u "type"), (VS (SStr (u "string")))); ((u "title"), (VS (SStr (u "Type"))))])); ((u "title"), (VO None [((u "type"), (VS (SStr (u "string")))); ((u "title"), (VS (SStr (u "Name"))))])); ((u "address"), (VO None [((u "type"), (VS (SStr (u "string")))); ((u "title"), (VS (SStr (u "Address"))))])); ((u "owners"), (VO None [((u "items"), (VO (Some [((u "$ref"), (VS (SStr (u "#/definitions/OwnerObject"))))]) [((u "type"), (VS (SStr (u "object")))); ((u "properties"), (VO None [((u "firstname"), (VO None [((u "type"), (VS (SStr (u "string")))); ((u "title"), (VS (SStr (u "First name"))))])); ((u "lastname"), (VO None [((u "type"), (VS (SStr (u "string")))); ((u "title"), (VS (SStr (u "Last name"))))])); ((u "email"), (VO None [((u "type"), (VS (SStr (u "string")))); ((u "title"), (VS (SStr (u "Email"))))]))]))])); ((u "type"), (VS (SStr (u "array")))); ((u "title"), (VS (SStr (u "Owner")))); ((u "rollUp"), (VA [(VS (SStr (u "firstname"))); (VS (SStr (u "lastname"))); (VS (SStr (u "email")))]))])); ((u "dishes"), (VO None [((u "items"), (VO (Some [((u "$ref"), (VS (SStr (u "#/definitions/DishObject"))))]) [((u "type"), (VS (SStr (u "object")))); ((u "properties"), (VO None [((u "id"), (VO None [((u "type"), (VS (SStr (u "string")))); ((u "title"), (VS (SStr (u "Identifier"))))])); ((u "title"), (VO None [((u "type"), (VS (SStr (u "string")))); ((u "title"), (VS (SStr (u "Name"))))])); ((u "allergens"), (VO None [((u "type"), (VS (SStr (u "object")))); ((u "title"), (VS (SStr (u "Allergens")))); ((u "properties"), (VO None [((u "freefrom"), (VO None [((u "type"), (VS (SStr (u "array")))); ((u "title"), (VS (SStr (u "Free from")))); ((u "items"), (VO None [((u "type"), (VS (SStr (u "string"))))]))])); ((u "contains"), (VO None [((u "type"), (VS (SStr (u "array")))); ((u "title"), (VS (SStr (u "Contains")))); ((u "items"), (VO None [((u "type"), (VS (SStr (u "string"))))]))])); ((u "label"), (VO None [((u "type"), (VS (SStr (u "array")))); ((u "title"), (VS (SStr (u "Label")))); ((u "items"), (VO None [((u "type"), (VS (SStr (u "string"))))]))]))]))]))]))])); ((u "type"), (VS (SStr (u "array")))); ((u "title"), (VS (SStr (u "Dish"))))])); ((u "coffee"), (VO None [((u "type"), (VS (SStr (u "string")))); ((u "title"), (VS (SStr (u "Coffee quality"))))])); ((u "coke"), (VO None [((u "type"), (VS (SStr (u "string")))); ((u "title"), (VS (SStr (u "Type of coke"))))]))]))]))] false)
  [(u "flatten"); (u "--root-list-path=cafe"); (u "--use-titles"); (u "--main-sheet-name=cafe"); (u "--rollup"); (u "--schema=examples/flatten/rollup/schema/cafe-rollup.schema"); (u "examples/flatten/rollup/input.json"); (u "-o"); (u "examples/flatten/rollup/schema/actual")] 0
  [((Some (u "examples/flatten/rollup/schema/actual/Dish.csv")), (line_text crlf_ [(u "Identifier,Dish:Identifier,Dish:Name,Dish:Allergens:Free from,Dish:Allergens:Contains,Dish:Allergens:Label");
      (u "1,bfast,All Day Breakfast,dairy;eggs,gluten;soy,vegan;vegetarian");
      (u "1,soup,Jack's Soup,onion;garlic,dairy,vegetarian");
      (u "")]));
   ((Some (u "examples/flatten/rollup/schema/actual/Owner.csv")), (line_text crlf_ [(u "Identifier,Owner:First name,Owner:Last name,Owner:Email");
      (u "1,Clark,Kent,contact@cafeopen.example");
      (u "2,Jim,Kirk,pintsrus@protonmail.com");
      (u "")]));
   ((Some (u "examples/flatten/rollup/schema/actual/cafe.csv")), (line_text crlf_ [(u "Identifier,Type,Name,Address,Owner:First name,Owner:Last name,Owner:Email,Coffee quality,Type of coke");
      (u "1,cafe,Cafe Open,,Clark,Kent,contact@cafeopen.example,passable,");
      (u "2,pub,Pints R Us,,Jim,Kirk,pintsrus@protonmail.com,,pepsi");
      (u "")]))]). Qed.

(** examples/flatten/root-is-list: flatten --root-is-list examples/flatten/root-is-list/data.json -o examples/flatten/root-is-list/actual *)
(* flatten_root_is_list *)
Goal True. holds (outcome_is (doc_world
    [((u "examples/flatten/root-is-list/data.json"), (line_text lf_ [(u "[");
      (u "  {");
      (u "    ""id"": ""shop"",");
      (u "    ""title"": ""Shop""");
      (u "  },");
      (u "  {");
      (u "    ""id"": ""pub"",");
      (u "    ""title"": ""Pub""");
      (u "  }");
      (u "]")]))]
    [] []
    [] false)
  [(u "flatten"); (u "--root-is-list"); (u "examples/flatten/root-is-list/data.json"); (u "-o"); (u "examples/flatten/root-is-list/actual")] 0
  [((Some (u "examples/flatten/root-is-list/actual/main.csv")), (line_text crlf_ [(u "id,title");
      (u "shop,Shop");
      (u "pub,Pub");
      (u "")]))]). Qed.

(** examples/flatten/sheet-prefix: flatten --sheet-prefix=test- --root-list-path=cafe --main-sheet-name=cafe --schema=examples/receipt/cafe.schema examples/receipt/normalised/expected.json -o examples/flatten/sheet-prefix/actual *)
(* flatten_sheet_prefix *)
Goal True. holds (outcome_is (doc_world
    [((u "examples/receipt/normalised/expected.json"), (line_text lf_ [(u "{");
      (u "    ""cafe"": [");
      (u "        {");
      (u "            ""id"": ""CAFE-HEALTH"",");
      (u "            ""name"": ""Healthy Cafe"",");
      (u "            ""table"": [");
      (u "                {");
      (u "                    ""id"": ""TABLE-1"",");
      (u "                    ""number"": ""1"",");
      (u "                    ""dish"": [");
      (u "                        {");
      (u "                            ""name"": ""Fish and Chips"",");
      (u "                            ""cost"": ""9.95""");
      (u "                        },");
      (u "                        {");
      (u "                            ""name"": ""Pesto Pasta Salad"",");
      (u "                            ""cost"": ""6.95""");
      (u "                        }");
      (u "                    ]");
      (u "                },");
      (u "                {");
      (u "                    ""id"": ""TABLE-2"",");
      (u "                    ""number"": ""2""");
      (u "                },");
      (u "                {");
      (u "                    ""id"": ""TABLE-3"",");
      (u "                    ""number"": ""3"",");
      (u "                    ""dish"": [");
      (u "                        {");
      (u "                            ""name"": ""Fish and Chips"",");
      (u "                            ""cost"": ""9.95""");
      (u "                        }");
      (u "                    ]");
      (u "                }");
      (u "            ]");
      (u "        },");
      (u "        {");
      (u "            ""id"": ""CAFE-VEG"",");
      (u "            ""name"": ""Vegetarian Cafe"",");
      (u "            ""table"": [");
      (u "                {");
      (u "                    ""id"": ""TABLE-16"",");
      (u "                    ""number"": ""16"",");
      (u "                    ""dish"": [");
      (u "                        {");
      (u "                            ""name"": ""Large Glass Sauvignon"",");
      (u "                            ""cost"": ""5.95""");
      (u "                        }");
      (u "                    ]");
      (u "                },");
      (u "                {");
      (u "                    ""id"": ""TABLE-17"",");
      (u "                    ""number"": ""17""");
      (u "                }");
      (u "            ]");
      (u "        }");
      (u "    ]");
      (u "}");
      (u "")]))]
    [] []
    [((u "examples/receipt/cafe.schema"), (VO None [((u "$schema"), (VS (SStr (u "http://json-schema.org/draft-04/schema#")))); ((u "definitions"), (VO None [((u "TableObject"), (VO None [((u "type"), (VS (SStr (u "object")))); ((u "properties"), (VO None [((u "id"), (VO None [((u "type"), (VS (SStr (u "string")))); ((u "title"), (VS (SStr (u "Identifier"))))])); ((u "number"), (VO None [((u "type"), (VS (SStr (u "integer")))); ((u "title"), (VS (SStr (u "Number"))))])); ((u "dish"), (VO None [((u "items"), (VO (Some [((u "$ref"), (VS (SStr (u "#/definitions/DishObject"))))]) [((u "type"), (VS (SStr (u "object")))); ((u "properties"), (VO None [((u "id"), (VO None [((u "type"), (VS (SStr (u "string")))); ((u "title"), (VS (SStr (u "Identifier"))))])); ((u "name"), (VO None [((u "type"), (VS (SStr (u "string")))); ((u "title"), (VS (SStr (u "Name"))))])); ((u "cost"), (VO None [((u "type"), (VS (SStr (u "number")))); ((u "title"), (VS (SStr (u "Cost"))))]))]))])); ((u "type"), (VS (SStr (u "array")))); ((u "title"), (VS (SStr (u "Dish"))))]))]))])); ((u "DishObject"), (VO None [((u "type"), (VS (SStr (u "object")))); ((u "properties"), (VO None [((u "id"), (VO None [((u "type"), (VS (SStr (u "string")))); ((u "title"), (VS (SStr (u "Identifier"))))])); ((u "name"), (VO None [((u "type"), (VS (SStr (u "string")))); ((u "title"), (VS (SStr (u "Name"))))])); ((u "cost"), (VO None [((u "type"), (VS (SStr (u "number")))); ((u "title"), (VS (SStr (u "Cost"))))]))]))]))])); ((u "type"), (VS (SStr (u "object")))); ((u "properties"), (VO None [((u "id"), (VO None [((u "type"), (VS (SStr (u "string")))); ((u "title"), (VS (SStr (u "Identifier"))))])); ((u "name"), (VO None [((u "type"), (VS (SStr (u "string")))); ((u "title"), (VS (SStr (u "Name"))))])); ((u "address"), (VO None [((u "type"), (VS (SStr (u "string")))); ((u "title"), (VS (SStr (u "Address"))))])); ((u "table"), (VO None [((u "items"), (VO (Some [((u "$ref"), (VS (SStr (u "#/definitions/TableObject"))))]) [((u "type"), (VS (SStr (u "object")))); ((u "properties"), (VO None [((u "id"), (VO None [((u "type"), (VS (SStr (u "string")))); ((u "title"), (VS (SStr (u "Identifier"))))])); ((u "number"), (VO None [((u "type"), (VS (SStr (u "integer")))); ((u "title"), (VS (SStr (u "Number"))))])); ((u "dish"), (VO None [((u "items"), (VO (Some [((u "$ref"), (VS (SStr (u "#/definitions/DishObject"))))]) [((u "type"), (VS (SStr (u "object")))); ((u "properties"), (VO None [((u "id"), (VO None [((u "type"), (VS (SStr (u "string")))); ((u "title"), (VS (SStr (u "Identifier"))))])); ((u "name"), (VO None [((u "type"), (VS (SStr (u "string")))); ((u "title"), (VS (SStr (u "Name"))))])); ((u "cost"), (VO None [((u "type"), (VS (SStr (u "number")))); ((u "title"), (VS (SStr (u "Cost"))))]))]))])); ((u "type"), (VS (SStr (u "array")))); ((u "title"), (VS (SStr (u "Dish"))))]))]))])); ((u "type"), (VS (SStr (u "array")))); ((u "title"), (VS (SStr (u "Table"))))]))]))]))] false)
  [(u "flatten"); (u "--sheet-prefix=test-"); (u "--root-list-path=cafe"); (u "--main-sheet-name=cafe"); (u "--schema=examples/receipt/cafe.schema"); (u "examples/receipt/normalised/expected.json"); (u "-o"); (u "examples/flatten/sheet-prefix/actual")] 0
  [((Some (u "examples/flatten/sheet-prefix/actual/test-cafe.csv")), (line_text crlf_ [(u "id,name,address");
      (u "CAFE-HEALTH,Healthy Cafe,");
      (u "CAFE-VEG,Vegetarian Cafe,");
      (u "")]));
   ((Some (u "examples/flatten/sheet-prefix/actual/test-tab_dish.csv")), (line_text crlf_ [(u "id,table/0/id,table/0/dish/0/id,table/0/dish/0/name,table/0/dish/0/cost");
      (u "CAFE-HEALTH,TABLE-1,,Fish and Chips,9.95");
      (u "CAFE-HEALTH,TABLE-1,,Pesto Pasta Salad,6.95");
      (u "CAFE-HEALTH,TABLE-3,,Fish and Chips,9.95");
      (u "CAFE-VEG,TABLE-16,,Large Glass Sauvignon,5.95");
      (u "")]));
   ((Some (u "examples/flatten/sheet-prefix/actual/test-table.csv")), (line_text crlf_ [(u "id,table/0/id,table/0/number");
      (u "CAFE-HEALTH,TABLE-1,1");
      (u "CAFE-HEALTH,TABLE-2,2");
      (u "CAFE-HEALTH,TABLE-3,3");
      (u "CAFE-VEG,TABLE-16,16");
      (u "CAFE-VEG,TABLE-17,17");
      (u "")]))]). Qed.

(** examples/flatten/simple: flatten --root-list-path=cafe --main-sheet-name=cafe --schema=examples/receipt/cafe.schema examples/receipt/normalised/expected.json -o examples/flatten/simple/actual *)
(* flatten_simple *)
Goal True. holds (outcome_is (doc_world
    [((u "examples/receipt/normalised/expected.json"), (line_text lf_ [(u "{");
      (u "    ""cafe"": [");
      (u "        {");
      (u "            ""id"": ""CAFE-HEALTH"",");
      (u "            ""name"": ""Healthy Cafe"",");
      (u "            ""table"": [");
      (u "                {");
      (u "                    ""id"": ""TABLE-1"",");
      (u "                    ""number"": ""1"",");
      (u "                    ""dish"": [");
      (u "                        {");
      (u "                            ""name"": ""Fish and Chips"",");
      (u "                            ""cost"": ""9.95""");
      (u "                        },");
      (u "                        {");
      (u "                            ""name"": ""Pesto Pasta Salad"",");
      (u "                            ""cost"": ""6.95""");
      (u "                        }");
      (u "                    ]");
      (u "                },");
      (u "                {");
      (u "                    ""id"": ""TABLE-2"",");
      (u "                    ""number"": ""2""");
      (u "                },");
      (u "                {");
      (u "                    ""id"": ""TABLE-3"",");
      (u "                    ""number"": ""3"",");
      (u "                    ""dish"": [");
      (u "                        {");
      (u "                            ""name"": ""Fish and Chips"",");
      (u "                            ""cost"": ""9.95""");
      (u "                        }");
      (u "                    ]");
      (u "                }");
      (u "            ]");
      (u "        },");
      (u "        {");
      (u "            ""id"": ""CAFE-VEG"",");
      (u "            ""name"": ""Vegetarian Cafe"",");
      (u "            ""table"": [");
      (u "                {");
      (u "                    ""id"": ""TABLE-16"",");
      (u "                    ""number"": ""16"",");
      (u "                    ""dish"": [");
      (u "                        {");
      (u "                            ""name"": ""Large Glass Sauvignon"",");
      (u "                            ""cost"": ""5.95""");
      (u "                        }");
      (u "                    ]");
      (u "                },");
      (u "                {");
      (u "                    ""id"": ""TABLE-17"",");
      (u "                    ""number"": ""17""");
      (u "                }");
      (u "            ]");
      (u "        }");
      (u "    ]");
      (u "}");
      (u "")]))]
    [] []
    [((u "examples/receipt/cafe.schema"), (VO None [((u "$schema"), (VS (SStr (u "http://json-schema.org/draft-04/schema#")))); ((u "definitions"), (VO None [((u "TableObject"), (VO None [((u "type"), (VS (SStr (u "object")))); ((u "properties"), (VO None [((u "id"), (VO None [((u "type"), (VS (SStr (u "string")))); ((u "title"), (VS (SStr (u "Identifier"))))])); ((u "number"), (VO None [((u "type"), (VS (SStr (u "integer")))); ((u "title"), (VS (SStr (u "Number"))))])); ((u "dish"), (VO None [((u "items"), (VO (Some [((u "$ref"), (VS (SStr (u "#/definitions/DishObject"))))]) [((u "type"), (VS (SStr (u "object")))); ((u "properties"), (VO None [((u "id"), (VO None [((u "type"), (VS (SStr (u "string")))); ((u "title"), (VS (SStr (u "Identifier"))))])); ((u "name"), (VO None [((u "type"), (VS (SStr (u "string")))); ((u "title"), (VS (SStr (u "Name"))))])); ((u "cost"), (VO None [((u "type"), (VS (SStr (u "number")))); ((u "title"), (VS (SStr (u "Cost"))))]))]))])); ((u "type"), (VS (SStr (u "array")))); ((u "title"), (VS (SStr (u "Dish"))))]))]))])); ((u "DishObject"), (VO None [((u "type"), (VS (SStr (u "object")))); ((u "properties"), (VO None [((u "id"), (VO None [((u "type"), (VS (SStr (u "string")))); ((u "title"), (VS (SStr (u "Identifier"))))])); ((u "name"), (VO None [((u "type"), (VS (SStr (u "string")))); ((u "title"), (VS (SStr (u "Name"))))])); ((u "cost"), (VO None [((u "type"), (VS (SStr (u "number")))); ((u "title"), (VS (SStr (u "Cost"))))]))]))]))])); ((u "type"), (VS (SStr (u "object")))); ((u "properties"), (VO None [((u "id"), (VO None [((u "type"), (VS (SStr (u "string")))); ((u "title"), (VS (SStr (u "Identifier"))))])); ((u "name"), (VO None [((u "type"), (VS (SStr (u "string")))); ((u "title"), (VS (SStr (u "Name"))))])); ((u "address"), (VO None [((u "type"), (VS (SStr (u "string")))); ((u "title"), (VS (SStr (u "Address"))))])); ((u "table"), (VO None [((u "items"), (VO (Some [((u "$ref"), (VS (SStr (u "#/definitions/TableObject"))))]) [((u "type"), (VS (SStr (u "object")))); ((u "properties"), (VO None [((u "id"), (VO None [((u "type"), (VS (SStr (u "string")))); ((u "title"), (VS (SStr (u "Identifier"))))])); ((u "number"), (VO None [((u "type"), (VS (SStr (u "integer")))); ((u "title"), (VS (SStr (u "Number"))))])); ((u "dish"), (VO None [((u "items"), (VO (Some [((u "$ref"), (VS (SStr (u "#/definitions/DishObject"))))]) [((u "type"), (VS (SStr (u "object")))); ((u "properties"), (VO None [((u "id"), (VO None [((u "type"), (VS (SStr (u "string")))); ((u "title"), (VS (SStr (u "Identifier"))))])); ((u "name"), (VO None [((u "type"), (VS (SStr (u "string")))); ((u "title"), (VS (SStr (u "Name"))))])); ((u "cost"), (VO None [((u "type"), (VS (SStr (u "number")))); ((u "title"), (VS (SStr (u "Cost"))))]))]))])); ((u "type"), (VS (SStr (u "array")))); ((u "title"), (VS (SStr (u "Dish"))))]))]))])); ((u "type"), (VS (SStr (u "array")))); ((u "title"), (VS (SStr (u "Table"))))]))]))]))] false)
  [(u "flatten"); (u "--root-list-path=cafe"); (u "--main-sheet-name=cafe"); (u "--schema=examples/receipt/cafe.schema"); (u "examples/receipt/normalised/expected.json"); (u "-o"); (u "examples/flatten/simple/actual")] 0
  [((Some (u "examples/flatten/simple/actual/cafe.csv")), (line_text crlf_ [(u "id,name,address");
      (u "CAFE-HEALTH,Healthy Cafe,");
      (u "CAFE-VEG,Vegetarian Cafe,");
      (u "")]));
   ((Some (u "examples/flatten/simple/actual/tab_dish.csv")), (line_text crlf_ [(u "id,table/0/id,table/0/dish/0/id,table/0/dish/0/name,table/0/dish/0/cost");
      (u "CAFE-HEALTH,TABLE-1,,Fish and Chips,9.95");
      (u "CAFE-HEALTH,TABLE-1,,Pesto Pasta Salad,6.95");
      (u "CAFE-HEALTH,TABLE-3,,Fish and Chips,9.95");
      (u "CAFE-VEG,TABLE-16,,Large Glass Sauvignon,5.95");
      (u "")]));
   ((Some (u "examples/flatten/simple/actual/table.csv")), (line_text crlf_ [(u "id,table/0/id,table/0/number");
      (u "CAFE-HEALTH,TABLE-1,1");
      (u "CAFE-HEALTH,TABLE-2,2");
      (u "CAFE-HEALTH,TABLE-3,3");
      (u "CAFE-VEG,TABLE-16,16");
      (u "CAFE-VEG,TABLE-17,17");
      (u "")]))]). Qed.

(** examples/flatten/truncation-length: flatten --truncation-length 5 --root-list-path=cafe --schema=examples/receipt/cafe.schema examples/receipt/normalised/expected.json -f csv -o examples/flatten/truncation-length/actual *)
(* flatten_truncation_length *)
Goal True. holds (outcome_is (doc_world
    [((u "examples/receipt/normalised/expected.json"), (line_text lf_ [(u "{");
      (u "    ""cafe"": [");
      (u "        {");
      (u "            ""id"": ""CAFE-HEALTH"",");
      (u "            ""name"": ""Healthy Cafe"",");
      (u "            ""table"": [");
      (u "                {");
      (u "                    ""id"": ""TABLE-1"",");
      (u "                    ""number"": ""1"",");
      (u "                    ""dish"": [");
      (u "                        {");
      (u "                            ""name"": ""Fish and Chips"",");
      (u "                            ""cost"": ""9.95""");
      (u "                        },");
      (u "                        {");
      (u "                            ""name"": ""Pesto Pasta Salad"",");
      (u "                            ""cost"": ""6.95""");
      (u "                        }");
      (u "                    ]");
      (u "                },");
      (u "                {");
      (u "                    ""id"": ""TABLE-2"",");
      (u "                    ""number"": ""2""");
      (u "                },");
      (u "                {");
      (u "                    ""id"": ""TABLE-3"",");
      (u "                    ""number"": ""3"",");
      (u "                    ""dish"": [");
      (u "                        {");
      (u "                            ""name"": ""Fish and Chips"",");
      (u "                            ""cost"": ""9.95""");
      (u "                        }");
      (u "                    ]");
      (u "                }");
      (u "            ]");
      (u "        },");
      (u "        {");
      (u "            ""id"": ""CAFE-VEG"",");
      (u "            ""name"": ""Vegetarian Cafe"",");
      (u "            ""table"": [");
      (u "                {");
      (u "                    ""id"": ""TABLE-16"",");
      (u "                    ""number"": ""16"",");
      (u "                    ""dish"": [");
      (u "                        {");
      (u "                            ""name"": ""Large Glass Sauvignon"",");
      (u "                            ""cost"": ""5.95""");
      (u "                        }");
      (u "                    ]");
      (u "                },");
      (u "                {");
      (u "                    ""id"": ""TABLE-17"",");
      (u "                    ""number"": ""17""");
      (u "                }");
      (u "            ]");
      (u "        }");
      (u "    ]");
      (u "}");
      (u "")]))]
    [] []
    [((u "examples/receipt/cafe.schema"), (VO None [((u "$schema"), (VS (SStr (u "http://json-schema.org/draft-04/schema#")))); ((u "definitions"), (VO None [((u "TableObject"), (VO None [((u "type"), (VS (SStr (u "object")))); ((u "properties"), (VO None [((u "id"), (VO None [((u "type"), (VS (SStr (u "string")))); ((u "title"), (VS (SStr (u "Identifier"))))])); ((u "number"), (VO None [((u "type"), (VS (SStr (u "integer")))); ((u "title"), (VS (SStr (u "Number"))))])); ((u "dish"), (VO None [((u "items"), (VO (Some [((u "$ref"), (VS (SStr (u "#/definitions/DishObject"))))]) [((u "type"), (VS (SStr (u "object")))); ((u "properties"), (VO None [((u "id"), (VO None [((u "type"), (VS (SStr (u "string")))); ((u "title"), (VS (SStr (u "Identifier"))))])); ((u "name"), (VO None [((u "type"), (VS (SStr (u "string")))); ((u "title"), (VS (SStr (u "Name"))))])); ((u "cost"), (VO None [((u "type"), (VS (SStr (u "number")))); ((u "title"), (VS (SStr (u "Cost"))))]))]))])); ((u "type"), (VS (SStr (u "array")))); ((u "title"), (VS (SStr (u "Dish"))))]))]))])); ((u "DishObject"), (VO None [((u "type"), (VS (SStr (u "object")))); ((u "properties"), (VO None [((u "id"), (VO None [((u "type"), (VS (SStr (u "string")))); ((u "title"), (VS (SStr (u "Identifier"))))])); ((u "name"), (VO None [((u "type"), (VS (SStr (u "string")))); ((u "title"), (VS (SStr (u "Name"))))])); ((u "cost"), (VO None [((u "type"), (VS (SStr (u "number")))); ((u "title"), (VS (SStr (u "Cost"))))]))]))]))])); ((u "type"), (VS (SStr (u "object")))); ((u "properties"), (VO None [((u "id"), (VO None [((u "type"), (VS (SStr (u "string")))); ((u "title"), (VS (SStr (u "Identifier"))))])); ((u "name"), (VO None [((u "type"), (VS (SStr (u "string")))); ((u "title"), (VS (SStr (u "Name"))))])); ((u "address"), (VO None [((u "type"), (VS (SStr (u "string")))); ((u "title"), (VS (SStr (u "Address"))))])); ((u "table"), (VO None [((u "items"), (VO (Some [((u "$ref"), (VS (SStr (u "#/definitions/TableObject"))))]) [((u "type"), (VS (SStr (u "object")))); ((u "properties"), (VO None [((u "id"), (VO None [((u "type"), (VS (SStr (u "string")))); ((u "title"), (VS (SStr (u "Identifier"))))])); ((u "number"), (VO None [((u "type"), (VS (SStr (u "integer")))); ((u "title"), (VS (SStr (u "Number"))))])); ((u "dish"), (VO None [((u "items"), (VO (Some [((u "$ref"), (VS (SStr (u "#/definitions/DishObject"))))]) [((u "type"), (VS (SStr (u "object")))); ((u "properties"), (VO None [((u "id"), (VO None [((u "type"), (VS (SStr (u "string")))); ((u "title"), (VS (SStr (u "Identifier"))))])); ((u "name"), (VO None [((u "type"), (VS (SStr (u "string")))); ((u "title"), (VS (SStr (u "Name"))))])); ((u "cost"), (VO None [((u "type"), (VS (SStr (u "number")))); ((u "title"), (VS (SStr (u "Cost"))))]))]))])); ((u "type"), (VS (SStr (u "array")))); ((u "title"), (VS (SStr (u "Dish"))))]))]))])); ((u "type"), (VS (SStr (u "array")))); ((u "title"), (VS (SStr (u "Table"))))]))]))]))] false)
  [(u "flatten"); (u "--truncation-length"); (u "5"); (u "--root-list-path=cafe"); (u "--schema=examples/receipt/cafe.schema"); (u "examples/receipt/normalised/expected.json"); (u "-f"); (u "csv"); (u "-o"); (u "examples/flatten/truncation-length/actual")] 0
  [((Some (u "examples/flatten/truncation-length/actual/main.csv")), (line_text crlf_ [(u "id,name,address");
      (u "CAFE-HEALTH,Healthy Cafe,");
      (u "CAFE-VEG,Vegetarian Cafe,");
      (u "")]));
   ((Some (u "examples/flatten/truncation-length/actual/table.csv")), (line_text crlf_ [(u "id,table/0/id,table/0/number");
      (u "CAFE-HEALTH,TABLE-1,1");
      (u "CAFE-HEALTH,TABLE-2,2");
      (u "CAFE-HEALTH,TABLE-3,3");
      (u "CAFE-VEG,TABLE-16,16");
      (u "CAFE-VEG,TABLE-17,17");
      (u "")]));
   ((Some (u "examples/flatten/truncation-length/actual/table_dish.csv")), (line_text crlf_ [(u "id,table/0/id,table/0/dish/0/id,table/0/dish/0/name,table/0/dish/0/cost");
      (u "CAFE-HEALTH,TABLE-1,,Fish and Chips,9.95");
      (u "CAFE-HEALTH,TABLE-1,,Pesto Pasta Salad,6.95");
      (u "CAFE-HEALTH,TABLE-3,,Fish and Chips,9.95");
      (u "CAFE-VEG,TABLE-16,,Large Glass Sauvignon,5.95");
      (u "")]))]). Qed.

(** examples/iati: unflatten --xml --id-name iati-identifier --root-list-path iati-activity --xml-schema examples/iati/iati-activities-schema.xsd examples/iati/iati-common.xsd -f csv examples/iati *)
(* iati *)
Goal True. holds (xml_is (doc_world
    [((u "examples/iati/main.csv"), (line_text lf_ [(u "iati-identifier,reporting-org/@ref,reporting-org/@type,reporting-org/narrative,participating-org/@role,participating-org/@ref,activity-status/@code,activity-date/@type,activity-date/@iso-date,recipient-country/0/@code,recipient-country/0/@percentage,recipient-country/1/@code,recipient-country/1/@percentage,title/narrative,description/narrative,@last-updated-datetime");
      (u "AA-AAA-123456789-ABC123,AA-AAA-123456789,40,Organisation name,1,AA-AAA-123456789,2,1,2011-10-01,AF,40,XK,60,A title,A description,2011-10-01T00:00:00+00:00");
      (u "AA-AAA-123456789-ABC124,AA-AAA-123456789,40,Organisation name,1,AA-AAA-123456789,3,2,2016-01-01,AG,30,XK,70,Another title,Another description,2016-01-01T00:00:00+00:00");
      (u "")]));
     ((u "examples/iati/transactions.csv"), (line_text lf_ [(u "iati-identifier,transaction/0/transaction-type/@code,transaction/0/transaction-date/@iso-date,transaction/0/value/@value-date,transaction/0/value");
      (u "AA-AAA-123456789-ABC123,2,2012-01-01,2012-01-01,10");
      (u "AA-AAA-123456789-ABC123,3,2012-03-03,2012-03-03,20");
      (u "AA-AAA-123456789-ABC124,2,2013-04-04,2013-04-04,30");
      (u "AA-AAA-123456789-ABC124,3,2013-05-05,2013-05-05,40");
      (u "")]))]
    [] [((u "examples/iati/iati-activities-schema.xsd"), xsd_0); ((u "examples/iati/iati-common.xsd"), xsd_1)]
    [] false)
  [(u "unflatten"); (u "--xml"); (u "--id-name"); (u "iati-identifier"); (u "--root-list-path"); (u "iati-activity"); (u "--xml-schema"); (u "examples/iati/iati-activities-schema.xsd"); (u "examples/iati/iati-common.xsd"); (u "-f"); (u "csv"); (u "examples/iati")]
  (El (u "iati-activities") [] None [(El (u "iati-activity") [((u "last-updated-datetime"), (u "2011-10-01T00:00:00+00:00"))] None [(El (u "iati-identifier") [] (Some (u "AA-AAA-123456789-ABC123")) []);
   (El (u "reporting-org") [((u "ref"), (u "AA-AAA-123456789")); ((u "type"), (u "40"))] None [(El (u "narrative") [] (Some (u "Organisation name")) [])]);
   (El (u "title") [] None [(El (u "narrative") [] (Some (u "A title")) [])]);
   (El (u "description") [] None [(El (u "narrative") [] (Some (u "A description")) [])]);
   (El (u "participating-org") [((u "ref"), (u "AA-AAA-123456789")); ((u "role"), (u "1"))] None []);
   (El (u "activity-status") [((u "code"), (u "2"))] None []);
   (El (u "activity-date") [((u "iso-date"), (u "2011-10-01")); ((u "type"), (u "1"))] None []);
   (El (u "recipient-country") [((u "code"), (u "AF")); ((u "percentage"), (u "40"))] None []);
   (El (u "recipient-country") [((u "code"), (u "XK")); ((u "percentage"), (u "60"))] None []);
   (El (u "transaction") [] None [(El (u "transaction-type") [((u "code"), (u "2"))] None []);
   (El (u "transaction-date") [((u "iso-date"), (u "2012-01-01"))] None []);
   (El (u "value") [((u "value-date"), (u "2012-01-01"))] (Some (u "10")) [])]);
   (El (u "transaction") [] None [(El (u "transaction-type") [((u "code"), (u "3"))] None []);
   (El (u "transaction-date") [((u "iso-date"), (u "2012-03-03"))] None []);
   (El (u "value") [((u "value-date"), (u "2012-03-03"))] (Some (u "20")) [])])]);
   (El (u "iati-activity") [((u "last-updated-datetime"), (u "2016-01-01T00:00:00+00:00"))] None [(El (u "iati-identifier") [] (Some (u "AA-AAA-123456789-ABC124")) []);
   (El (u "reporting-org") [((u "ref"), (u "AA-AAA-123456789")); ((u "type"), (u "40"))] None [(El (u "narrative") [] (Some (u "Organisation name")) [])]);
   (El (u "title") [] None [(El (u "narrative") [] (Some (u "Another title")) [])]);
   (El (u "description") [] None [(El (u "narrative") [] (Some (u "Another description")) [])]);
   (El (u "participating-org") [((u "ref"), (u "AA-AAA-123456789")); ((u "role"), (u "1"))] None []);
   (El (u "activity-status") [((u "code"), (u "3"))] None []);
   (El (u "activity-date") [((u "iso-date"), (u "2016-01-01")); ((u "type"), (u "2"))] None []);
   (El (u "recipient-country") [((u "code"), (u "AG")); ((u "percentage"), (u "30"))] None []);
   (El (u "recipient-country") [((u "code"), (u "XK")); ((u "percentage"), (u "70"))] None []);
   (El (u "transaction") [] None [(El (u "transaction-type") [((u "code"), (u "2"))] None []);
   (El (u "transaction-date") [((u "iso-date"), (u "2013-04-04"))] None []);
   (El (u "value") [((u "value-date"), (u "2013-04-04"))] (Some (u "30")) [])]);
   (El (u "transaction") [] None [(El (u "transaction-type") [((u "code"), (u "3"))] None []);
   (El (u "transaction-date") [((u "iso-date"), (u "2013-05-05"))] None []);
   (El (u "value") [((u "value-date"), (u "2013-05-05"))] (Some (u "40")) [])])])])
  (u "XML generated by flatten-tool")). Qed.

(** examples/iati_multilang: unflatten --xml --id-name iati-identifier --root-list-path iati-activity --xml-schema examples/iati/iati-activities-schema.xsd examples/iati/iati-common.xsd -f csv examples/iati_multilang *)
(* iati_multilang *)
Goal True. holds (xml_is (doc_world
    [((u "examples/iati_multilang/main.csv"), (line_text lf_ [(u "iati-identifier,reporting-org/@ref,reporting-org/@type,reporting-org/narrative,participating-org/@role,participating-org/@ref,activity-status/@code,activity-date/@type,activity-date/@iso-date,recipient-country/0/@code,recipient-country/0/@percentage,recipient-country/1/@code,recipient-country/1/@percentage,title/narrative/0/@xml:lang,title/narrative/0,title/narrative/1/@xml:lang,title/narrative/1,description/narrative");
      (u "AA-AAA-123456789-ABC123,AA-AAA-123456789,40,Organisation name,1,AA-AAA-123456789,2,1,2011-10-01,AF,40,XK,60,en,""A title, with comma"",fr,Un titre,A description");
      (u "AA-AAA-123456789-ABC124,AA-AAA-123456789,40,Organisation name,1,AA-AAA-123456789,3,2,2016-01-01,AG,30,XK,70,en,Another title; with semicolon,fr,Un autre titre,Another description");
      (u "")]));
     ((u "examples/iati_multilang/transactions.csv"), (line_text lf_ [(u "iati-identifier,transaction/0/transaction-type/@code,transaction/0/transaction-date/@iso-date,transaction/0/value/@value-date,transaction/0/value");
      (u "AA-AAA-123456789-ABC123,2,2012-01-01,2012-01-01,10");
      (u "AA-AAA-123456789-ABC123,3,2012-03-03,2012-03-03,20");
      (u "AA-AAA-123456789-ABC124,2,2013-04-04,2013-04-04,30");
      (u "AA-AAA-123456789-ABC124,3,2013-05-05,2013-05-05,40");
      (u "")]))]
    [] [((u "examples/iati/iati-activities-schema.xsd"), xsd_0); ((u "examples/iati/iati-common.xsd"), xsd_1)]
    [] false)
  [(u "unflatten"); (u "--xml"); (u "--id-name"); (u "iati-identifier"); (u "--root-list-path"); (u "iati-activity"); (u "--xml-schema"); (u "examples/iati/iati-activities-schema.xsd"); (u "examples/iati/iati-common.xsd"); (u "-f"); (u "csv"); (u "examples/iati_multilang")]
  (El (u "iati-activities") [] None [(El (u "iati-activity") [] None [(El (u "iati-identifier") [] (Some (u "AA-AAA-123456789-ABC123")) []);
   (El (u "reporting-org") [((u "ref"), (u "AA-AAA-123456789")); ((u "type"), (u "40"))] None [(El (u "narrative") [] (Some (u "Organisation name")) [])]);
   (El (u "title") [] None [(El (u "narrative") [((u "{http://www.w3.org/XML/1998/namespace}lang"), (u "en"))] (Some (u "A title, with comma")) []);
   (El (u "narrative") [((u "{http://www.w3.org/XML/1998/namespace}lang"), (u "fr"))] (Some (u "Un titre")) [])]);
   (El (u "description") [] None [(El (u "narrative") [] (Some (u "A description")) [])]);
   (El (u "participating-org") [((u "ref"), (u "AA-AAA-123456789")); ((u "role"), (u "1"))] None []);
   (El (u "activity-status") [((u "code"), (u "2"))] None []);
   (El (u "activity-date") [((u "iso-date"), (u "2011-10-01")); ((u "type"), (u "1"))] None []);
   (El (u "recipient-country") [((u "code"), (u "AF")); ((u "percentage"), (u "40"))] None []);
   (El (u "recipient-country") [((u "code"), (u "XK")); ((u "percentage"), (u "60"))] None []);
   (El (u "transaction") [] None [(El (u "transaction-type") [((u "code"), (u "2"))] None []);
   (El (u "transaction-date") [((u "iso-date"), (u "2012-01-01"))] None []);
   (El (u "value") [((u "value-date"), (u "2012-01-01"))] (Some (u "10")) [])]);
   (El (u "transaction") [] None [(El (u "transaction-type") [((u "code"), (u "3"))] None []);
   (El (u "transaction-date") [((u "iso-date"), (u "2012-03-03"))] None []);
   (El (u "value") [((u "value-date"), (u "2012-03-03"))] (Some (u "20")) [])])]);
   (El (u "iati-activity") [] None [(El (u "iati-identifier") [] (Some (u "AA-AAA-123456789-ABC124")) []);
   (El (u "reporting-org") [((u "ref"), (u "AA-AAA-123456789")); ((u "type"), (u "40"))] None [(El (u "narrative") [] (Some (u "Organisation name")) [])]);
   (El (u "title") [] None [(El (u "narrative") [((u "{http://www.w3.org/XML/1998/namespace}lang"), (u "en"))] (Some (u "Another title; with semicolon")) []);
   (El (u "narrative") [((u "{http://www.w3.org/XML/1998/namespace}lang"), (u "fr"))] (Some (u "Un autre titre")) [])]);
   (El (u "description") [] None [(El (u "narrative") [] (Some (u "Another description")) [])]);
   (El (u "participating-org") [((u "ref"), (u "AA-AAA-123456789")); ((u "role"), (u "1"))] None []);
   (El (u "activity-status") [((u "code"), (u "3"))] None []);
   (El (u "activity-date") [((u "iso-date"), (u "2016-01-01")); ((u "type"), (u "2"))] None []);
   (El (u "recipient-country") [((u "code"), (u "AG")); ((u "percentage"), (u "30"))] None []);
   (El (u "recipient-country") [((u "code"), (u "XK")); ((u "percentage"), (u "70"))] None []);
   (El (u "transaction") [] None [(El (u "transaction-type") [((u "code"), (u "2"))] None []);
   (El (u "transaction-date") [((u "iso-date"), (u "2013-04-04"))] None []);
   (El (u "value") [((u "value-date"), (u "2013-04-04"))] (Some (u "30")) [])]);
   (El (u "transaction") [] None [(El (u "transaction-type") [((u "code"), (u "3"))] None []);
   (El (u "transaction-date") [((u "iso-date"), (u "2013-05-05"))] None []);
   (El (u "value") [((u "value-date"), (u "2013-05-05"))] (Some (u "40")) [])])])])
  (u "XML generated by flatten-tool")). Qed.

(** examples/iati_namespaces: unflatten --xml --id-name iati-identifier --root-list-path iati-activity --xml-schema examples/iati/iati-activities-schema.xsd examples/iati/iati-common.xsd -f csv examples/iati_namespaces *)
(* iati_namespaces *)
Goal True. holds (xml_is (doc_world
    [((u "examples/iati_namespaces/main.csv"), (line_text lf_ [(u "iati-identifier,reporting-org/@ref,reporting-org/@type,reporting-org/narrative,participating-org/@role,participating-org/@ref,activity-status/@code,activity-date/@type,activity-date/@iso-date,recipient-country/0/@code,recipient-country/0/@percentage,recipient-country/1/@code,recipient-country/1/@percentage,title/narrative,description/narrative,@last-updated-datetime,@xmlns:customns,customns:test");
      (u "AA-AAA-123456789-ABC123,AA-AAA-123456789,40,Organisation name,1,AA-AAA-123456789,2,1,2011-10-01,AF,40,XK,60,A title,A description,2011-10-01T00:00:00+00:00,http://example.com/1,one");
      (u "AA-AAA-123456789-ABC124,AA-AAA-123456789,40,Organisation name,1,AA-AAA-123456789,3,2,2016-01-01,AG,30,XK,70,Another title,Another description,2016-01-01T00:00:00+00:00,http://example.com/2,two");
      (u "")]));
     ((u "examples/iati_namespaces/transactions.csv"), (line_text lf_ [(u "iati-identifier,transaction/0/transaction-type/@code,transaction/0/transaction-date/@iso-date,transaction/0/value/@value-date,transaction/0/value");
      (u "AA-AAA-123456789-ABC123,2,2012-01-01,2012-01-01,10");
      (u "AA-AAA-123456789-ABC123,3,2012-03-03,2012-03-03,20");
      (u "AA-AAA-123456789-ABC124,2,2013-04-04,2013-04-04,30");
      (u "AA-AAA-123456789-ABC124,3,2013-05-05,2013-05-05,40");
      (u "")]))]
    [] [((u "examples/iati/iati-activities-schema.xsd"), xsd_0); ((u "examples/iati/iati-common.xsd"), xsd_1)]
    [] false)
  [(u "unflatten"); (u "--xml"); (u "--id-name"); (u "iati-identifier"); (u "--root-list-path"); (u "iati-activity"); (u "--xml-schema"); (u "examples/iati/iati-activities-schema.xsd"); (u "examples/iati/iati-common.xsd"); (u "-f"); (u "csv"); (u "examples/iati_namespaces")]
  (El (u "iati-activities") [] None [(El (u "iati-activity") [((u "last-updated-datetime"), (u "2011-10-01T00:00:00+00:00"))] None [(El (u "iati-identifier") [] (Some (u "AA-AAA-123456789-ABC123")) []);
   (El (u "reporting-org") [((u "ref"), (u "AA-AAA-123456789")); ((u "type"), (u "40"))] None [(El (u "narrative") [] (Some (u "Organisation name")) [])]);
   (El (u "title") [] None [(El (u "narrative") [] (Some (u "A title")) [])]);
   (El (u "description") [] None [(El (u "narrative") [] (Some (u "A description")) [])]);
   (El (u "participating-org") [((u "ref"), (u "AA-AAA-123456789")); ((u "role"), (u "1"))] None []);
   (El (u "activity-status") [((u "code"), (u "2"))] None []);
   (El (u "activity-date") [((u "iso-date"), (u "2011-10-01")); ((u "type"), (u "1"))] None []);
   (El (u "recipient-country") [((u "code"), (u "AF")); ((u "percentage"), (u "40"))] None []);
   (El (u "recipient-country") [((u "code"), (u "XK")); ((u "percentage"), (u "60"))] None []);
   (El (u "transaction") [] None [(El (u "transaction-type") [((u "code"), (u "2"))] None []);
   (El (u "transaction-date") [((u "iso-date"), (u "2012-01-01"))] None []);
   (El (u "value") [((u "value-date"), (u "2012-01-01"))] (Some (u "10")) [])]);
   (El (u "transaction") [] None [(El (u "transaction-type") [((u "code"), (u "3"))] None []);
   (El (u "transaction-date") [((u "iso-date"), (u "2012-03-03"))] None []);
   (El (u "value") [((u "value-date"), (u "2012-03-03"))] (Some (u "20")) [])]);
   (El (u "{http://example.com/1}test") [] (Some (u "one")) [])]);
   (El (u "iati-activity") [((u "last-updated-datetime"), (u "2016-01-01T00:00:00+00:00"))] None [(El (u "iati-identifier") [] (Some (u "AA-AAA-123456789-ABC124")) []);
   (El (u "reporting-org") [((u "ref"), (u "AA-AAA-123456789")); ((u "type"), (u "40"))] None [(El (u "narrative") [] (Some (u "Organisation name")) [])]);
   (El (u "title") [] None [(El (u "narrative") [] (Some (u "Another title")) [])]);
   (El (u "description") [] None [(El (u "narrative") [] (Some (u "Another description")) [])]);
   (El (u "participating-org") [((u "ref"), (u "AA-AAA-123456789")); ((u "role"), (u "1"))] None []);
   (El (u "activity-status") [((u "code"), (u "3"))] None []);
   (El (u "activity-date") [((u "iso-date"), (u "2016-01-01")); ((u "type"), (u "2"))] None []);
   (El (u "recipient-country") [((u "code"), (u "AG")); ((u "percentage"), (u "30"))] None []);
   (El (u "recipient-country") [((u "code"), (u "XK")); ((u "percentage"), (u "70"))] None []);
   (El (u "transaction") [] None [(El (u "transaction-type") [((u "code"), (u "2"))] None []);
   (El (u "transaction-date") [((u "iso-date"), (u "2013-04-04"))] None []);
   (El (u "value") [((u "value-date"), (u "2013-04-04"))] (Some (u "30")) [])]);
   (El (u "transaction") [] None [(El (u "transaction-type") [((u "code"), (u "3"))] None []);
   (El (u "transaction-date") [((u "iso-date"), (u "2013-05-05"))] None []);
   (El (u "value") [((u "value-date"), (u "2013-05-05"))] (Some (u "40")) [])]);
   (El (u "{http://example.com/2}test") [] (Some (u "two")) [])])])
  (u "XML generated by flatten-tool")). Qed.

(** examples/iati_xml_comment: unflatten --xml --id-name iati-identifier --root-list-path iati-activity --xml-comment XML generated by ODS --xml-schema examples/iati/iati-activities-schema.xsd examples/iati/iati-common.xsd -f csv examples/iati_xml_comment *)
(* iati_xml_comment *)
Goal True. holds (xml_is (doc_world
    [((u "examples/iati_xml_comment/main.csv"), (line_text lf_ [(u "iati-identifier,reporting-org/@ref,reporting-org/@type,reporting-org/narrative,participating-org/@role,participating-org/@ref,activity-status/@code,activity-date/@type,activity-date/@iso-date,recipient-country/0/@code,recipient-country/0/@percentage,recipient-country/1/@code,recipient-country/1/@percentage,title/narrative/0/@xml:lang,title/narrative/0,title/narrative/1/@xml:lang,title/narrative/1,description/narrative");
      (u "AA-AAA-123456789-ABC123,AA-AAA-123456789,40,Organisation name,1,AA-AAA-123456789,2,1,2011-10-01,AF,40,XK,60,en,""A title, with comma"",fr,Un titre,A description");
      (u "AA-AAA-123456789-ABC124,AA-AAA-123456789,40,Organisation name,1,AA-AAA-123456789,3,2,2016-01-01,AG,30,XK,70,en,Another title; with semicolon,fr,Un autre titre,Another description");
      (u "")]));
     ((u "examples/iati_xml_comment/transactions.csv"), (line_text lf_ [(u "iati-identifier,transaction/0/transaction-type/@code,transaction/0/transaction-date/@iso-date,transaction/0/value/@value-date,transaction/0/value");
      (u "AA-AAA-123456789-ABC123,2,2012-01-01,2012-01-01,10");
      (u "AA-AAA-123456789-ABC123,3,2012-03-03,2012-03-03,20");
      (u "AA-AAA-123456789-ABC124,2,2013-04-04,2013-04-04,30");
      (u "AA-AAA-123456789-ABC124,3,2013-05-05,2013-05-05,40");
      (u "")]))]
    [] [((u "examples/iati/iati-activities-schema.xsd"), xsd_0); ((u "examples/iati/iati-common.xsd"), xsd_1)]
    [] false)
  [(u "unflatten"); (u "--xml"); (u "--id-name"); (u "iati-identifier"); (u "--root-list-path"); (u "iati-activity"); (u "--xml-comment"); (u "XML generated by ODS"); (u "--xml-schema"); (u "examples/iati/iati-activities-schema.xsd"); (u "examples/iati/iati-common.xsd"); (u "-f"); (u "csv"); (u "examples/iati_xml_comment")]
  (El (u "iati-activities") [] None [(El (u "iati-activity") [] None [(El (u "iati-identifier") [] (Some (u "AA-AAA-123456789-ABC123")) []);
   (El (u "reporting-org") [((u "ref"), (u "AA-AAA-123456789")); ((u "type"), (u "40"))] None [(El (u "narrative") [] (Some (u "Organisation name")) [])]);
   (El (u "title") [] None [(El (u "narrative") [((u "{http://www.w3.org/XML/1998/namespace}lang"), (u "en"))] (Some (u "A title, with comma")) []);
   (El (u "narrative") [((u "{http://www.w3.org/XML/1998/namespace}lang"), (u "fr"))] (Some (u "Un titre")) [])]);
   (El (u "description") [] None [(El (u "narrative") [] (Some (u "A description")) [])]);
   (El (u "participating-org") [((u "ref"), (u "AA-AAA-123456789")); ((u "role"), (u "1"))] None []);
   (El (u "activity-status") [((u "code"), (u "2"))] None []);
   (El (u "activity-date") [((u "iso-date"), (u "2011-10-01")); ((u "type"), (u "1"))] None []);
   (El (u "recipient-country") [((u "code"), (u "AF")); ((u "percentage"), (u "40"))] None []);
   (El (u "recipient-country") [((u "code"), (u "XK")); ((u "percentage"), (u "60"))] None []);
   (El (u "transaction") [] None [(El (u "transaction-type") [((u "code"), (u "2"))] None []);
   (El (u "transaction-date") [((u "iso-date"), (u "2012-01-01"))] None []);
   (El (u "value") [((u "value-date"), (u "2012-01-01"))] (Some (u "10")) [])]);
   (El (u "transaction") [] None [(El (u "transaction-type") [((u "code"), (u "3"))] None []);
   (El (u "transaction-date") [((u "iso-date"), (u "2012-03-03"))] None []);
   (El (u "value") [((u "value-date"), (u "2012-03-03"))] (Some (u "20")) [])])]);
   (El (u "iati-activity") [] None [(El (u "iati-identifier") [] (Some (u "AA-AAA-123456789-ABC124")) []);
   (El (u "reporting-org") [((u "ref"), (u "AA-AAA-123456789")); ((u "type"), (u "40"))] None [(El (u "narrative") [] (Some (u "Organisation name")) [])]);
   (El (u "title") [] None [(El (u "narrative") [((u "{http://www.w3.org/XML/1998/namespace}lang"), (u "en"))] (Some (u "Another title; with semicolon")) []);
   (El (u "narrative") [((u "{http://www.w3.org/XML/1998/namespace}lang"), (u "fr"))] (Some (u "Un autre titre")) [])]);
   (El (u "description") [] None [(El (u "narrative") [] (Some (u "Another description")) [])]);
   (El (u "participating-org") [((u "ref"), (u "AA-AAA-123456789")); ((u "role"), (u "1"))] None []);
   (El (u "activity-status") [((u "code"), (u "3"))] None []);
   (El (u "activity-date") [((u "iso-date"), (u "2016-01-01")); ((u "type"), (u "2"))] None []);
   (El (u "recipient-country") [((u "code"), (u "AG")); ((u "percentage"), (u "30"))] None []);
   (El (u "recipient-country") [((u "code"), (u "XK")); ((u "percentage"), (u "70"))] None []);
   (El (u "transaction") [] None [(El (u "transaction-type") [((u "code"), (u "2"))] None []);
   (El (u "transaction-date") [((u "iso-date"), (u "2013-04-04"))] None []);
   (El (u "value") [((u "value-date"), (u "2013-04-04"))] (Some (u "30")) [])]);
   (El (u "transaction") [] None [(El (u "transaction-type") [((u "code"), (u "3"))] None []);
   (El (u "transaction-date") [((u "iso-date"), (u "2013-05-05"))] None []);
   (El (u "value") [((u "value-date"), (u "2013-05-05"))] (Some (u "40")) [])])])])
  (u "XML generated by ODS")). Qed.

(** examples/receipt/combine-table-into-cafe: unflatten -f=csv --root-list-path=cafe examples/receipt/combine-table-into-cafe/ *)
(* receipt_combine_table_into_cafe *)
Goal True. holds (outcome_is (doc_world
    [((u "examples/receipt/combine-table-into-cafe/cafes_and_tables.csv"), (line_text lf_ [(u "id,name,table/0/id,table/0/number");
      (u "CAFE-HEALTH,Healthy Cafe,TABLE-1,1");
      (u "CAFE-HEALTH,Healthy Cafe,TABLE-2,2");
      (u "CAFE-HEALTH,Healthy Cafe,TABLE-3,3");
      (u "CAFE-VEG,Vegetarian Cafe,TABLE-16,16");
      (u "CAFE-VEG,Vegetarian Cafe,TABLE-17,17");
      (u "")]));
     ((u "examples/receipt/combine-table-into-cafe/dishes.csv"), (line_text lf_ [(u "id,table/0/id,table/0/dish/0/name,table/0/dish/0/cost");
      (u "CAFE-HEALTH,TABLE-1,Fish and Chips,9.95");
      (u "CAFE-HEALTH,TABLE-1,Pesto Pasta Salad,6.95");
      (u "CAFE-HEALTH,TABLE-3,Fish and Chips,9.95");
      (u "CAFE-VEG,TABLE-16,Large Glass Sauvignon,5.95");
      (u "")]))]
    [] []
    [] false)
  [(u "unflatten"); (u "-f=csv"); (u "--root-list-path=cafe"); (u "examples/receipt/combine-table-into-cafe/")] 0
  [(None, (line_text lf_ [(u "{");
      (u "    ""cafe"": [");
      (u "        {");
      (u "            ""id"": ""CAFE-HEALTH"",");
      (u "            ""name"": ""Healthy Cafe"",");
      (u "            ""table"": [");
      (u "                {");
      (u "                    ""id"": ""TABLE-1"",");
      (u "                    ""number"": ""1"",");
      (u "                    ""dish"": [");
      (u "                        {");
      (u "                            ""name"": ""Fish and Chips"",");
      (u "                            ""cost"": ""9.95""");
      (u "                        },");
      (u "                        {");
      (u "                            ""name"": ""Pesto Pasta Salad"",");
      (u "                            ""cost"": ""6.95""");
      (u "                        }");
      (u "                    ]");
      (u "                },");
      (u "                {");
      (u "                    ""id"": ""TABLE-2"",");
      (u "                    ""number"": ""2""");
      (u "                },");
      (u "                {");
      (u "                    ""id"": ""TABLE-3"",");
      (u "                    ""number"": ""3"",");
      (u "                    ""dish"": [");
      (u "                        {");
      (u "                            ""name"": ""Fish and Chips"",");
      (u "                            ""cost"": ""9.95""");
      (u "                        }");
      (u "                    ]");
      (u "                }");
      (u "            ]");
      (u "        },");
      (u "        {");
      (u "            ""id"": ""CAFE-VEG"",");
      (u "            ""name"": ""Vegetarian Cafe"",");
      (u "            ""table"": [");
      (u "                {");
      (u "                    ""id"": ""TABLE-16"",");
      (u "                    ""number"": ""16"",");
      (u "                    ""dish"": [");
      (u "                        {");
      (u "                            ""name"": ""Large Glass Sauvignon"",");
      (u "                            ""cost"": ""5.95""");
      (u "                        }");
      (u "                    ]");
      (u "                },");
      (u "                {");
      (u "                    ""id"": ""TABLE-17"",");
      (u "                    ""number"": ""17""");
      (u "                }");
      (u "            ]");
      (u "        }");
      (u "    ]");
      (u "}");
      (u "")]))]). Qed.

(** examples/receipt/combine-table-into-cafe-2: unflatten -f=csv --root-list-path=cafe examples/receipt/combine-table-into-cafe-2/ *)
(* receipt_combine_table_into_cafe_2 *)
Goal True. holds (outcome_is (doc_world
    [((u "examples/receipt/combine-table-into-cafe-2/cafes_and_tables.csv"), (line_text lf_ [(u "id,name,table/0/id,table/0/number,table/1/id,table/1/number,table/2/id,table/2/number");
      (u "CAFE-HEALTH,Healthy Cafe,TABLE-1,1,TABLE-2,2,TABLE-3,3");
      (u "CAFE-VEG,Vegetarian Cafe,TABLE-16,16,TABLE-17,17");
      (u "")]));
     ((u "examples/receipt/combine-table-into-cafe-2/dishes.csv"), (line_text lf_ [(u "id,table/0/id,table/0/dish/0/name,table/0/dish/0/cost");
      (u "CAFE-HEALTH,TABLE-1,Fish and Chips,9.95");
      (u "CAFE-HEALTH,TABLE-1,Pesto Pasta Salad,6.95");
      (u "CAFE-HEALTH,TABLE-3,Fish and Chips,9.95");
      (u "CAFE-VEG,TABLE-16,Large Glass Sauvignon,5.95");
      (u "")]))]
    [] []
    [] false)
  [(u "unflatten"); (u "-f=csv"); (u "--root-list-path=cafe"); (u "examples/receipt/combine-table-into-cafe-2/")] 0
  [(None, (line_text lf_ [(u "{");
      (u "    ""cafe"": [");
      (u "        {");
      (u "            ""id"": ""CAFE-HEALTH"",");
      (u "            ""name"": ""Healthy Cafe"",");
      (u "            ""table"": [");
      (u "                {");
      (u "                    ""id"": ""TABLE-1"",");
      (u "                    ""number"": ""1"",");
      (u "                    ""dish"": [");
      (u "                        {");
      (u "                            ""name"": ""Fish and Chips"",");
      (u "                            ""cost"": ""9.95""");
      (u "                        },");
      (u "                        {");
      (u "                            ""name"": ""Pesto Pasta Salad"",");
      (u "                            ""cost"": ""6.95""");
      (u "                        }");
      (u "                    ]");
      (u "                },");
      (u "                {");
      (u "                    ""id"": ""TABLE-2"",");
      (u "                    ""number"": ""2""");
      (u "                },");
      (u "                {");
      (u "                    ""id"": ""TABLE-3"",");
      (u "                    ""number"": ""3"",");
      (u "                    ""dish"": [");
      (u "                        {");
      (u "                            ""name"": ""Fish and Chips"",");
      (u "                            ""cost"": ""9.95""");
      (u "                        }");
      (u "                    ]");
      (u "                }");
      (u "            ]");
      (u "        },");
      (u "        {");
      (u "            ""id"": ""CAFE-VEG"",");
      (u "            ""name"": ""Vegetarian Cafe"",");
      (u "            ""table"": [");
      (u "                {");
      (u "                    ""id"": ""TABLE-16"",");
      (u "                    ""number"": ""16"",");
      (u "                    ""dish"": [");
      (u "                        {");
      (u "                            ""name"": ""Large Glass Sauvignon"",");
      (u "                            ""cost"": ""5.95""");
      (u "                        }");
      (u "                    ]");
      (u "                },");
      (u "                {");
      (u "                    ""id"": ""TABLE-17"",");
      (u "                    ""number"": ""17""");
      (u "                }");
      (u "            ]");
      (u "        }");
      (u "    ]");
      (u "}");
      (u "")]))]). Qed.

(** examples/receipt/normalised: unflatten -f=csv --root-list-path=cafe examples/receipt/normalised/ *)
(* receipt_normalised *)
Goal True. holds (outcome_is (doc_world
    [((u "examples/receipt/normalised/1_cafes.csv"), (line_text lf_ [(u "id,name");
      (u "CAFE-HEALTH,Healthy Cafe");
      (u "CAFE-VEG,Vegetarian Cafe");
      (u "")]));
     ((u "examples/receipt/normalised/2_tables.csv"), (line_text lf_ [(u "id,table/0/id,table/0/number");
      (u "CAFE-HEALTH,TABLE-1,1");
      (u "CAFE-HEALTH,TABLE-2,2");
      (u "CAFE-HEALTH,TABLE-3,3");
      (u "CAFE-VEG,TABLE-16,16");
      (u "CAFE-VEG,TABLE-17,17");
      (u "")]));
     ((u "examples/receipt/normalised/3_dishes.csv"), (line_text lf_ [(u "id,table/0/id,table/0/dish/0/name,table/0/dish/0/cost");
      (u "CAFE-HEALTH,TABLE-1,Fish and Chips,9.95");
      (u "CAFE-HEALTH,TABLE-1,Pesto Pasta Salad,6.95");
      (u "CAFE-HEALTH,TABLE-3,Fish and Chips,9.95");
      (u "CAFE-VEG,TABLE-16,Large Glass Sauvignon,5.95");
      (u "")]))]
    [] []
    [] false)
  [(u "unflatten"); (u "-f=csv"); (u "--root-list-path=cafe"); (u "examples/receipt/normalised/")] 0
  [(None, (line_text lf_ [(u "{");
      (u "    ""cafe"": [");
      (u "        {");
      (u "            ""id"": ""CAFE-HEALTH"",");
      (u "            ""name"": ""Healthy Cafe"",");
      (u "            ""table"": [");
      (u "                {");
      (u "                    ""id"": ""TABLE-1"",");
      (u "                    ""number"": ""1"",");
      (u "                    ""dish"": [");
      (u "                        {");
      (u "                            ""name"": ""Fish and Chips"",");
      (u "                            ""cost"": ""9.95""");
      (u "                        },");
      (u "                        {");
      (u "                            ""name"": ""Pesto Pasta Salad"",");
      (u "                            ""cost"": ""6.95""");
      (u "                        }");
      (u "                    ]");
      (u "                },");
      (u "                {");
      (u "                    ""id"": ""TABLE-2"",");
      (u "                    ""number"": ""2""");
      (u "                },");
      (u "                {");
      (u "                    ""id"": ""TABLE-3"",");
      (u "                    ""number"": ""3"",");
      (u "                    ""dish"": [");
      (u "                        {");
      (u "                            ""name"": ""Fish and Chips"",");
      (u "                            ""cost"": ""9.95""");
      (u "                        }");
      (u "                    ]");
      (u "                }");
      (u "            ]");
      (u "        },");
      (u "        {");
      (u "            ""id"": ""CAFE-VEG"",");
      (u "            ""name"": ""Vegetarian Cafe"",");
      (u "            ""table"": [");
      (u "                {");
      (u "                    ""id"": ""TABLE-16"",");
      (u "                    ""number"": ""16"",");
      (u "                    ""dish"": [");
      (u "                        {");
      (u "                            ""name"": ""Large Glass Sauvignon"",");
      (u "                            ""cost"": ""5.95""");
      (u "                        }");
      (u "                    ]");
      (u "                },");
      (u "                {");
      (u "                    ""id"": ""TABLE-17"",");
      (u "                    ""number"": ""17""");
      (u "                }");
      (u "            ]");
      (u "        }");
      (u "    ]");
      (u "}");
      (u "")]))]). Qed.

(** examples/receipt/source-map: unflatten -f=csv --root-list-path=cafe --cell-source-map examples/receipt/source-map/actual/cell_source_map.json --heading-source-map examples/receipt/source-map/actual/heading_source_map.json examples/receipt/source-map/input/ *)
(* receipt_source_map *)
Goal True. holds (outcome_is (doc_world
    [((u "examples/receipt/source-map/input/1_cafes.csv"), (line_text lf_ [(u "id,name");
      (u "CAFE-HEALTH,Healthy Cafe");
      (u "CAFE-VEG,Vegetarian Cafe");
      (u "")]));
     ((u "examples/receipt/source-map/input/2_tables.csv"), (line_text lf_ [(u "id,table/0/id,table/0/number");
      (u "CAFE-HEALTH,TABLE-1,1");
      (u "CAFE-HEALTH,TABLE-2,2");
      (u "CAFE-HEALTH,TABLE-3,3");
      (u "CAFE-VEG,TABLE-16,16");
      (u "CAFE-VEG,TABLE-17,17");
      (u "")]));
     ((u "examples/receipt/source-map/input/3_dishes.csv"), (line_text lf_ [(u "id,table/0/id,table/0/dish/0/name,table/0/dish/0/cost");
      (u "CAFE-HEALTH,TABLE-1,Fish and Chips,9.95");
      (u "CAFE-HEALTH,TABLE-1,Pesto Pasta Salad,6.95");
      (u "CAFE-HEALTH,TABLE-3,Fish and Chips,9.95");
      (u "CAFE-VEG,TABLE-16,Large Glass Sauvignon,5.95");
      (u "")]))]
    [] []
    [] false)
  [(u "unflatten"); (u "-f=csv"); (u "--root-list-path=cafe"); (u "--cell-source-map"); (u "examples/receipt/source-map/actual/cell_source_map.json"); (u "--heading-source-map"); (u "examples/receipt/source-map/actual/heading_source_map.json"); (u "examples/receipt/source-map/input/")] 0
  [((Some (u "examples/receipt/source-map/actual/cell_source_map.json")), (line_text lf_ [(u "{");
      (u "    ""cafe/0/id"": [");
      (u "        [");
      (u "            ""1_cafes"",");
      (u "            ""A"",");
      (u "            2,");
      (u "            ""id""");
      (u "        ],");
      (u "        [");
      (u "            ""2_tables"",");
      (u "            ""A"",");
      (u "            2,");
      (u "            ""id""");
      (u "        ],");
      (u "        [");
      (u "            ""2_tables"",");
      (u "            ""A"",");
      (u "            3,");
      (u "            ""id""");
      (u "        ],");
      (u "        [");
      (u "            ""2_tables"",");
      (u "            ""A"",");
      (u "            4,");
      (u "            ""id""");
      (u "        ],");
      (u "        [");
      (u "            ""3_dishes"",");
      (u "            ""A"",");
      (u "            2,");
      (u "            ""id""");
      (u "        ],");
      (u "        [");
      (u "            ""3_dishes"",");
      (u "            ""A"",");
      (u "            3,");
      (u "            ""id""");
      (u "        ],");
      (u "        [");
      (u "            ""3_dishes"",");
      (u "            ""A"",");
      (u "            4,");
      (u "            ""id""");
      (u "        ]");
      (u "    ],");
      (u "    ""cafe/0/name"": [");
      (u "        [");
      (u "            ""1_cafes"",");
      (u "            ""B"",");
      (u "            2,");
      (u "            ""name""");
      (u "        ]");
      (u "    ],");
      (u "    ""cafe/0/table/0/dish/0/cost"": [");
      (u "        [");
      (u "            ""3_dishes"",");
      (u "            ""D"",");
      (u "            2,");
      (u "            ""table/0/dish/0/cost""");
      (u "        ]");
      (u "    ],");
      (u "    ""cafe/0/table/0/dish/0/name"": [");
      (u "        [");
      (u "            ""3_dishes"",");
      (u "            ""C"",");
      (u "            2,");
      (u "            ""table/0/dish/0/name""");
      (u "        ]");
      (u "    ],");
      (u "    ""cafe/0/table/0/dish/1/cost"": [");
      (u "        [");
      (u "            ""3_dishes"",");
      (u "            ""D"",");
      (u "            3,");
      (u "            ""table/0/dish/0/cost""");
      (u "        ]");
      (u "    ],");
      (u "    ""cafe/0/table/0/dish/1/name"": [");
      (u "        [");
      (u "            ""3_dishes"",");
      (u "            ""C"",");
      (u "            3,");
      (u "            ""table/0/dish/0/name""");
      (u "        ]");
      (u "    ],");
      (u "    ""cafe/0/table/0/id"": [");
      (u "        [");
      (u "            ""2_tables"",");
      (u "            ""B"",");
      (u "            2,");
      (u "            ""table/0/id""");
      (u "        ],");
      (u "        [");
      (u "            ""3_dishes"",");
      (u "            ""B"",");
      (u "            2,");
      (u "            ""table/0/id""");
      (u "        ],");
      (u "        [");
      (u "            ""3_dishes"",");
      (u "            ""B"",");
      (u "            3,");
      (u "            ""table/0/id""");
      (u "        ]");
      (u "    ],");
      (u "    ""cafe/0/table/0/number"": [");
      (u "        [");
      (u "            ""2_tables"",");
      (u "            ""C"",");
      (u "            2,");
      (u "            ""table/0/number""");
      (u "        ]");
      (u "    ],");
      (u "    ""cafe/0/table/1/id"": [");
      (u "        [");
      (u "            ""2_tables"",");
      (u "            ""B"",");
      (u "            3,");
      (u "            ""table/0/id""");
      (u "        ]");
      (u "    ],");
      (u "    ""cafe/0/table/1/number"": [");
      (u "        [");
      (u "            ""2_tables"",");
      (u "            ""C"",");
      (u "            3,");
      (u "            ""table/0/number""");
      (u "        ]");
      (u "    ],");
      (u "    ""cafe/0/table/2/dish/0/cost"": [");
      (u "        [");
      (u "            ""3_dishes"",");
      (u "            ""D"",");
      (u "            4,");
      (u "            ""table/0/dish/0/cost""");
      (u "        ]");
      (u "    ],");
      (u "    ""cafe/0/table/2/dish/0/name"": [");
      (u "        [");
      (u "            ""3_dishes"",");
      (u "            ""C"",");
      (u "            4,");
      (u "            ""table/0/dish/0/name""");
      (u "        ]");
      (u "    ],");
      (u "    ""cafe/0/table/2/id"": [");
      (u "        [");
      (u "            ""2_tables"",");
      (u "            ""B"",");
      (u "            4,");
      (u "            ""table/0/id""");
      (u "        ],");
      (u "        [");
      (u "            ""3_dishes"",");
      (u "            ""B"",");
      (u "            4,");
      (u "            ""table/0/id""");
      (u "        ]");
      (u "    ],");
      (u "    ""cafe/0/table/2/number"": [");
      (u "        [");
      (u "            ""2_tables"",");
      (u "            ""C"",");
      (u "            4,");
      (u "            ""table/0/number""");
      (u "        ]");
      (u "    ],");
      (u "    ""cafe/1/id"": [");
      (u "        [");
      (u "            ""1_cafes"",");
      (u "            ""A"",");
      (u "            3,");
      (u "            ""id""");
      (u "        ],");
      (u "        [");
      (u "            ""2_tables"",");
      (u "            ""A"",");
      (u "            5,");
      (u "            ""id""");
      (u "        ],");
      (u "        [");
      (u "            ""2_tables"",");
      (u "            ""A"",");
      (u "            6,");
      (u "            ""id""");
      (u "        ],");
      (u "        [");
      (u "            ""3_dishes"",");
      (u "            ""A"",");
      (u "            5,");
      (u "            ""id""");
      (u "        ]");
      (u "    ],");
      (u "    ""cafe/1/name"": [");
      (u "        [");
      (u "            ""1_cafes"",");
      (u "            ""B"",");
      (u "            3,");
      (u "            ""name""");
      (u "        ]");
      (u "    ],");
      (u "    ""cafe/1/table/0/dish/0/cost"": [");
      (u "        [");
      (u "            ""3_dishes"",");
      (u "            ""D"",");
      (u "            5,");
      (u "            ""table/0/dish/0/cost""");
      (u "        ]");
      (u "    ],");
      (u "    ""cafe/1/table/0/dish/0/name"": [");
      (u "        [");
      (u "            ""3_dishes"",");
      (u "            ""C"",");
      (u "            5,");
      (u "            ""table/0/dish/0/name""");
      (u "        ]");
      (u "    ],");
      (u "    ""cafe/1/table/0/id"": [");
      (u "        [");
      (u "            ""2_tables"",");
      (u "            ""B"",");
      (u "            5,");
      (u "            ""table/0/id""");
      (u "        ],");
      (u "        [");
      (u "            ""3_dishes"",");
      (u "            ""B"",");
      (u "            5,");
      (u "            ""table/0/id""");
      (u "        ]");
      (u "    ],");
      (u "    ""cafe/1/table/0/number"": [");
      (u "        [");
      (u "            ""2_tables"",");
      (u "            ""C"",");
      (u "            5,");
      (u "            ""table/0/number""");
      (u "        ]");
      (u "    ],");
      (u "    ""cafe/1/table/1/id"": [");
      (u "        [");
      (u "            ""2_tables"",");
      (u "            ""B"",");
      (u "            6,");
      (u "            ""table/0/id""");
      (u "        ]");
      (u "    ],");
      (u "    ""cafe/1/table/1/number"": [");
      (u "        [");
      (u "            ""2_tables"",");
      (u "            ""C"",");
      (u "            6,");
      (u "            ""table/0/number""");
      (u "        ]");
      (u "    ],");
      (u "    ""cafe/0"": [");
      (u "        [");
      (u "            ""1_cafes"",");
      (u "            2");
      (u "        ],");
      (u "        [");
      (u "            ""2_tables"",");
      (u "            2");
      (u "        ],");
      (u "        [");
      (u "            ""2_tables"",");
      (u "            3");
      (u "        ],");
      (u "        [");
      (u "            ""2_tables"",");
      (u "            4");
      (u "        ],");
      (u "        [");
      (u "            ""3_dishes"",");
      (u "            2");
      (u "        ],");
      (u "        [");
      (u "            ""3_dishes"",");
      (u "            3");
      (u "        ],");
      (u "        [");
      (u "            ""3_dishes"",");
      (u "            4");
      (u "        ]");
      (u "    ],");
      (u "    ""cafe/0/table/0/dish/0"": [");
      (u "        [");
      (u "            ""3_dishes"",");
      (u "            2");
      (u "        ]");
      (u "    ],");
      (u "    ""cafe/0/table/0/dish/1"": [");
      (u "        [");
      (u "            ""3_dishes"",");
      (u "            3");
      (u "        ]");
      (u "    ],");
      (u "    ""cafe/0/table/0"": [");
      (u "        [");
      (u "            ""2_tables"",");
      (u "            2");
      (u "        ],");
      (u "        [");
      (u "            ""3_dishes"",");
      (u "            2");
      (u "        ],");
      (u "        [");
      (u "            ""3_dishes"",");
      (u "            3");
      (u "        ]");
      (u "    ],");
      (u "    ""cafe/0/table/1"": [");
      (u "        [");
      (u "            ""2_tables"",");
      (u "            3");
      (u "        ]");
      (u "    ],");
      (u "    ""cafe/0/table/2/dish/0"": [");
      (u "        [");
      (u "            ""3_dishes"",");
      (u "            4");
      (u "        ]");
      (u "    ],");
      (u "    ""cafe/0/table/2"": [");
      (u "        [");
      (u "            ""2_tables"",");
      (u "            4");
      (u "        ],");
      (u "        [");
      (u "            ""3_dishes"",");
      (u "            4");
      (u "        ]");
      (u "    ],");
      (u "    ""cafe/1"": [");
      (u "        [");
      (u "            ""1_cafes"",");
      (u "            3");
      (u "        ],");
      (u "        [");
      (u "            ""2_tables"",");
      (u "            5");
      (u "        ],");
      (u "        [");
      (u "            ""2_tables"",");
      (u "            6");
      (u "        ],");
      (u "        [");
      (u "            ""3_dishes"",");
      (u "            5");
      (u "        ]");
      (u "    ],");
      (u "    ""cafe/1/table/0/dish/0"": [");
      (u "        [");
      (u "            ""3_dishes"",");
      (u "            5");
      (u "        ]");
      (u "    ],");
      (u "    ""cafe/1/table/0"": [");
      (u "        [");
      (u "            ""2_tables"",");
      (u "            5");
      (u "        ],");
      (u "        [");
      (u "            ""3_dishes"",");
      (u "            5");
      (u "        ]");
      (u "    ],");
      (u "    ""cafe/1/table/1"": [");
      (u "        [");
      (u "            ""2_tables"",");
      (u "            6");
      (u "        ]");
      (u "    ]");
      (u "}")]));
   ((Some (u "examples/receipt/source-map/actual/heading_source_map.json")), (line_text lf_ [(u "{");
      (u "    ""cafe/id"": [");
      (u "        [");
      (u "            ""1_cafes"",");
      (u "            ""id""");
      (u "        ],");
      (u "        [");
      (u "            ""2_tables"",");
      (u "            ""id""");
      (u "        ],");
      (u "        [");
      (u "            ""3_dishes"",");
      (u "            ""id""");
      (u "        ]");
      (u "    ],");
      (u "    ""cafe/name"": [");
      (u "        [");
      (u "            ""1_cafes"",");
      (u "            ""name""");
      (u "        ]");
      (u "    ],");
      (u "    ""cafe/table/dish/cost"": [");
      (u "        [");
      (u "            ""3_dishes"",");
      (u "            ""table/0/dish/0/cost""");
      (u "        ]");
      (u "    ],");
      (u "    ""cafe/table/dish/name"": [");
      (u "        [");
      (u "            ""3_dishes"",");
      (u "            ""table/0/dish/0/name""");
      (u "        ]");
      (u "    ],");
      (u "    ""cafe/table/id"": [");
      (u "        [");
      (u "            ""2_tables"",");
      (u "            ""table/0/id""");
      (u "        ],");
      (u "        [");
      (u "            ""3_dishes"",");
      (u "            ""table/0/id""");
      (u "        ]");
      (u "    ],");
      (u "    ""cafe/table/number"": [");
      (u "        [");
      (u "            ""2_tables"",");
      (u "            ""table/0/number""");
      (u "        ]");
      (u "    ]");
      (u "}")]));
   (None, (line_text lf_ [(u "{");
      (u "    ""cafe"": [");
      (u "        {");
      (u "            ""id"": ""CAFE-HEALTH"",");
      (u "            ""name"": ""Healthy Cafe"",");
      (u "            ""table"": [");
      (u "                {");
      (u "                    ""id"": ""TABLE-1"",");
      (u "                    ""number"": ""1"",");
      (u "                    ""dish"": [");
      (u "                        {");
      (u "                            ""name"": ""Fish and Chips"",");
      (u "                            ""cost"": ""9.95""");
      (u "                        },");
      (u "                        {");
      (u "                            ""name"": ""Pesto Pasta Salad"",");
      (u "                            ""cost"": ""6.95""");
      (u "                        }");
      (u "                    ]");
      (u "                },");
      (u "                {");
      (u "                    ""id"": ""TABLE-2"",");
      (u "                    ""number"": ""2""");
      (u "                },");
      (u "                {");
      (u "                    ""id"": ""TABLE-3"",");
      (u "                    ""number"": ""3"",");
      (u "                    ""dish"": [");
      (u "                        {");
      (u "                            ""name"": ""Fish and Chips"",");
      (u "                            ""cost"": ""9.95""");
      (u "                        }");
      (u "                    ]");
      (u "                }");
      (u "            ]");
      (u "        },");
      (u "        {");
      (u "            ""id"": ""CAFE-VEG"",");
      (u "            ""name"": ""Vegetarian Cafe"",");
      (u "            ""table"": [");
      (u "                {");
      (u "                    ""id"": ""TABLE-16"",");
      (u "                    ""number"": ""16"",");
      (u "                    ""dish"": [");
      (u "                        {");
      (u "                            ""name"": ""Large Glass Sauvignon"",");
      (u "                            ""cost"": ""5.95""");
      (u "                        }");
      (u "                    ]");
      (u "                },");
      (u "                {");
      (u "                    ""id"": ""TABLE-17"",");
      (u "                    ""number"": ""17""");
      (u "                }");
      (u "            ]");
      (u "        }");
      (u "    ]");
      (u "}");
      (u "")]))]). Qed.

(** examples/titles-ref/flatten: flatten --root-list-path=weather --main-sheet-name=weather --use-titles --schema=examples/titles-ref/schema.json examples/titles-ref/flatten/data.json -f csv -o examples/titles-ref/flatten/actual *)
(* titles_ref_flatten *)
Goal True. holds (outcome_is (doc_world
    [((u "examples/titles-ref/flatten/data.json"), (line_text lf_ [(u "{");
      (u "  ""weather"": [");
      (u "    {");
      (u "      ""id"": ""monday"",");
      (u "      ""rain"": ""tons and tons"",");
      (u "      ""thunder"": ""none""");
      (u "    },");
      (u "    {");
      (u "      ""id"": ""tuesday"",");
      (u "      ""rain"": ""dry as a bone"",");
      (u "      ""thunder"": ""loud as fireworks night""");
      (u "    }");
      (u "  ]");
      (u "}")]))]
    [] []
    [((u "examples/titles-ref/schema.json"), (VO None [((u "$schema"), (VS (SStr (u "http://json-schema.org/draft-04/schema#")))); ((u "definitions"), (VO None [((u "Value"), (VO None [((u "type"), (VS (SStr (u "string")))); ((u "title"), (VS (SStr (u "A lowly string"))))]))])); ((u "type"), (VS (SStr (u "object")))); ((u "properties"), (VO None [((u "id"), (VO None [((u "type"), (VS (SStr (u "string")))); ((u "title"), (VS (SStr (u "Identifier"))))])); ((u "rain"), (VO (Some [((u "$ref"), (VS (SStr (u "#/definitions/Value")))); ((u "title"), (VS (SStr (u "Was it soggy?"))))]) [((u "type"), (VS (SStr (u "string")))); ((u "title"), (VS (SStr (u "A lowly string"))))])); ((u "thunder"), (VO (Some [((u "$ref"), (VS (SStr (u "#/definitions/Value")))); ((u "title"), (VS (SStr (u "Was it noisy?"))))]) [((u "type"), (VS (SStr (u "string")))); ((u "title"), (VS (SStr (u "A lowly string"))))]))]))]))] false)
  [(u "flatten"); (u "--root-list-path=weather"); (u "--main-sheet-name=weather"); (u "--use-titles"); (u "--schema=examples/titles-ref/schema.json"); (u "examples/titles-ref/flatten/data.json"); (u "-f"); (u "csv"); (u "-o"); (u "examples/titles-ref/flatten/actual")] 0
  [((Some (u "examples/titles-ref/flatten/actual/weather.csv")), (line_text crlf_ [(u "Identifier,Was it soggy?,Was it noisy?");
      (u "monday,tons and tons,none");
      (u "tuesday,dry as a bone,loud as fireworks night");
      (u "")]))]). Qed.

(** examples/titles-ref/unflatten: unflatten -f csv --root-list-path=weather --convert-titles --schema=examples/titles-ref/schema.json examples/titles-ref/unflatten/data *)
(* titles_ref_unflatten *)
Goal True. holds (outcome_is (doc_world
    [((u "examples/titles-ref/unflatten/data/weather.csv"), (line_text crlf_ [(u "Identifier,Was it soggy?,Was it noisy?");
      (u "1st,tons and tons,none");
      (u "2nd,dry as a bone,loud as fireworks night");
      (u "")]))]
    [] []
    [((u "examples/titles-ref/schema.json"), (VO None [((u "$schema"), (VS (SStr (u "http://json-schema.org/draft-04/schema#")))); ((u "definitions"), (VO None [((u "Value"), (VO None [((u "type"), (VS (SStr (u "string")))); ((u "title"), (VS (SStr (u "A lowly string"))))]))])); ((u "type"), (VS (SStr (u "object")))); ((u "properties"), (VO None [((u "id"), (VO None [((u "type"), (VS (SStr (u "string")))); ((u "title"), (VS (SStr (u "Identifier"))))])); ((u "rain"), (VO (Some [((u "$ref"), (VS (SStr (u "#/definitions/Value")))); ((u "title"), (VS (SStr (u "Was it soggy?"))))]) [((u "type"), (VS (SStr (u "string")))); ((u "title"), (VS (SStr (u "A lowly string"))))])); ((u "thunder"), (VO (Some [((u "$ref"), (VS (SStr (u "#/definitions/Value")))); ((u "title"), (VS (SStr (u "Was it noisy?"))))]) [((u "type"), (VS (SStr (u "string")))); ((u "title"), (VS (SStr (u "A lowly string"))))]))]))]))] false)
  [(u "unflatten"); (u "-f"); (u "csv"); (u "--root-list-path=weather"); (u "--convert-titles"); (u "--schema=examples/titles-ref/schema.json"); (u "examples/titles-ref/unflatten/data")] 0
  [(None, (line_text lf_ [(u "{");
      (u "    ""weather"": [");
      (u "        {");
      (u "            ""id"": ""1st"",");
      (u "            ""rain"": ""tons and tons"",");
      (u "            ""thunder"": ""none""");
      (u "        },");
      (u "        {");
      (u "            ""id"": ""2nd"",");
      (u "            ""rain"": ""dry as a bone"",");
      (u "            ""thunder"": ""loud as fireworks night""");
      (u "        }");
      (u "    ]");
      (u "}")]))]). Qed.

(** examples/wkt/create_template: create-template --convert-wkt --schema examples/wkt/create_template/schema.json -o examples/wkt/create_template/actual *)
(* wkt_create_template *)
Goal True. holds (outcome_is (doc_world
    []
    [] []
    [((u "examples/wkt/create_template/schema.json"), (VO None [((u "properties"), (VO None [((u "geo"), (VO None [((u "type"), (VS (SStr (u "object")))); ((u "properties"), (VO None [((u "type"), (VO None [])); ((u "coordinates"), (VO None []))]))]))]))]))] false)
  [(u "create-template"); (u "--convert-wkt"); (u "--schema"); (u "examples/wkt/create_template/schema.json"); (u "-o"); (u "examples/wkt/create_template/actual")] 0
  [((Some (u "examples/wkt/create_template/actual/main.csv")), (line_text crlf_ [(u "geo");
      (u "")]))]). Qed.

(** examples/wkt/flatten: flatten -f=csv examples/wkt/flatten/data.json -o examples/wkt/flatten/actual --convert-wkt *)
(* wkt_flatten *)
Goal True. holds (outcome_is (doc_world
    [((u "examples/wkt/flatten/data.json"), (line_text lf_ [(u "{");
      (u "    ""main"": [");
      (u "        {");
      (u "            ""geo"": {");
      (u "                ""type"": ""Point"",");
      (u "                ""coordinates"": [53.486434, -2.239353]");
      (u "            }");
      (u "        }");
      (u "    ]");
      (u "}");
      (u "")]))]
    [] []
    [] false)
  [(u "flatten"); (u "-f=csv"); (u "examples/wkt/flatten/data.json"); (u "-o"); (u "examples/wkt/flatten/actual"); (u "--convert-wkt")] 0
  [((Some (u "examples/wkt/flatten/actual/main.csv")), (line_text crlf_ [(u "geo");
      (u "POINT (53.486434 -2.239353)");
      (u "")]))]). Qed.

(** examples/wkt/flatten_wkt_disabled: flatten -f=csv examples/wkt/flatten_wkt_disabled/data.json -o examples/wkt/flatten_wkt_disabled/actual *)
(* wkt_flatten_wkt_disabled *)
Goal True. holds (outcome_is (doc_world
    [((u "examples/wkt/flatten_wkt_disabled/data.json"), (line_text lf_ [(u "{");
      (u "    ""main"": [");
      (u "        {");
      (u "            ""geo"": {");
      (u "                ""type"": ""Point"",");
      (u "                ""coordinates"": [53.486434, -2.239353]");
      (u "            }");
      (u "        }");
      (u "    ]");
      (u "}");
      (u "")]))]
    [] []
    [] false)
  [(u "flatten"); (u "-f=csv"); (u "examples/wkt/flatten_wkt_disabled/data.json"); (u "-o"); (u "examples/wkt/flatten_wkt_disabled/actual")] 0
  [((Some (u "examples/wkt/flatten_wkt_disabled/actual/main.csv")), (line_text crlf_ [(u "geo/type,geo/coordinates");
      (u "Point,53.486434;-2.239353");
      (u "")]))]). Qed.

(** examples/wkt/unflatten: unflatten -f=csv examples/wkt/unflatten/ --schema examples/wkt/unflatten/schema.json --convert-wkt *)
(* wkt_unflatten *)
Goal True. holds (outcome_is (doc_world
    [((u "examples/wkt/unflatten/main.csv"), (line_text crlf_ [(u "geo");
      (u "POINT (53.486434 -2.239353)");
      (u "")]))]
    [] []
    [((u "examples/wkt/unflatten/schema.json"), (VO None [((u "properties"), (VO None [((u "geo"), (VO None [((u "type"), (VS (SStr (u "object")))); ((u "properties"), (VO None [((u "type"), (VO None [])); ((u "coordinates"), (VO None []))]))]))]))]))] false)
  [(u "unflatten"); (u "-f=csv"); (u "examples/wkt/unflatten/"); (u "--schema"); (u "examples/wkt/unflatten/schema.json"); (u "--convert-wkt")] 0
  [(None, (line_text lf_ [(u "{");
      (u "    ""main"": [");
      (u "        {");
      (u "            ""geo"": {");
      (u "                ""type"": ""Point"",");
      (u "                ""coordinates"": [");
      (u "                    53.486434,");
      (u "                    -2.239353");
      (u "                ]");
      (u "            }");
      (u "        }");
      (u "    ]");
      (u "}");
      (u "")]))]). Qed.

(** examples/wkt/unflatten_wkt_disabled: unflatten -f=csv examples/wkt/unflatten_wkt_disabled/ --schema examples/wkt/unflatten_wkt_disabled/schema.json *)
(* wkt_unflatten_wkt_disabled *)
Goal True. holds (outcome_is (doc_world
    [((u "examples/wkt/unflatten_wkt_disabled/main.csv"), (line_text crlf_ [(u "geo_string,geo/type,geo/coordinates");
      (u "POINT (53.486434 -2.239353),Point,53.486434;-2.239353");
      (u "")]))]
    [] []
    [((u "examples/wkt/unflatten_wkt_disabled/schema.json"), (VO None [((u "properties"), (VO None [((u "geo"), (VO None [((u "type"), (VS (SStr (u "object")))); ((u "properties"), (VO None [((u "type"), (VO None [])); ((u "coordinates"), (VO None [((u "type"), (VS (SStr (u "array")))); ((u "items"), (VO None [((u "type"), (VS (SStr (u "number"))))]))]))]))])); ((u "geo_string"), (VO None [((u "type"), (VS (SStr (u "string"))))]))]))]))] false)
  [(u "unflatten"); (u "-f=csv"); (u "examples/wkt/unflatten_wkt_disabled/"); (u "--schema"); (u "examples/wkt/unflatten_wkt_disabled/schema.json")] 0
  [(None, (line_text lf_ [(u "{");
      (u "    ""main"": [");
      (u "        {");
      (u "            ""geo_string"": ""POINT (53.486434 -2.239353)"",");
      (u "            ""geo"": {");
      (u "                ""type"": ""Point"",");
      (u "                ""coordinates"": [");
      (u "                    53.486434,");
      (u "                    -2.239353");
      (u "                ]");
      (u "            }");
      (u "        }");
      (u "    ]");
      (u "}");
      (u "")]))]). Qed.
