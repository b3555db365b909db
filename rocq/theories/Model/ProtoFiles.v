(** The .proto files of the application's state objects and those they import,
    transcribed by a script from /repo (the files of google from
    /repo/third_party/proto): packages, imports, messages and their fields, with the
    messages declared inside of others. *)
From Coq Require Import NArith List Bool String.
From stdpp Require Import base list.
From Verif.Model Require Import Bytes KindEncoder Desc OpenApi.

(** A field with one value, with many, and fields of messages. *)
Definition one (json : bytes) (k : kind) : field :=
  {| fd_json := json; fd_kind := k; fd_repeated := false; fd_map := None; fd_message := [] |}.
Definition many (json : bytes) (k : kind) : field :=
  {| fd_json := json; fd_kind := k; fd_repeated := true; fd_map := None; fd_message := [] |}.
Definition one_of (json name : bytes) : field :=
  {| fd_json := json; fd_kind := MessageKind; fd_repeated := false; fd_map := None; fd_message := name |}.
Definition many_of (json name : bytes) : field :=
  {| fd_json := json; fd_kind := MessageKind; fd_repeated := true; fd_map := None; fd_message := name |}.
Definition file (path package : bytes) (imports messages : list bytes) : filedesc :=
  {| fl_path := path; fl_package := package; fl_imports := imports; fl_messages := messages; fl_go_package := true |}.
Definition declared (f : filedesc) (name short : bytes) (fields : list field) : message :=
  {| me_desc := {| md_name := name; md_fields := fields |}; me_short := short; me_file := f |}.

(** third_party/proto/google/protobuf/descriptor.proto:1-909. *)
Definition file_0 : filedesc :=
  file (str "google/protobuf/descriptor.proto") (str "google.protobuf")
    []
    [str "google.protobuf.FileDescriptorSet";
     str "google.protobuf.FileDescriptorProto";
     str "google.protobuf.DescriptorProto";
     str "google.protobuf.ExtensionRangeOptions";
     str "google.protobuf.FieldDescriptorProto";
     str "google.protobuf.OneofDescriptorProto";
     str "google.protobuf.EnumDescriptorProto";
     str "google.protobuf.EnumValueDescriptorProto";
     str "google.protobuf.ServiceDescriptorProto";
     str "google.protobuf.MethodDescriptorProto";
     str "google.protobuf.FileOptions";
     str "google.protobuf.MessageOptions";
     str "google.protobuf.FieldOptions";
     str "google.protobuf.OneofOptions";
     str "google.protobuf.EnumOptions";
     str "google.protobuf.EnumValueOptions";
     str "google.protobuf.ServiceOptions";
     str "google.protobuf.MethodOptions";
     str "google.protobuf.UninterpretedOption";
     str "google.protobuf.SourceCodeInfo";
     str "google.protobuf.GeneratedCodeInfo"].
Definition file_0_messages : list message :=
  [declared file_0 (str "google.protobuf.FileDescriptorSet") (str "FileDescriptorSet")
     [many_of (str "file") (str "google.protobuf.FileDescriptorProto")];
   declared file_0 (str "google.protobuf.FileDescriptorProto") (str "FileDescriptorProto")
     [one (str "name") StringKind;
      one (str "package") StringKind;
      many (str "dependency") StringKind;
      many (str "publicDependency") Int32Kind;
      many (str "weakDependency") Int32Kind;
      many_of (str "messageType") (str "google.protobuf.DescriptorProto");
      many_of (str "enumType") (str "google.protobuf.EnumDescriptorProto");
      many_of (str "service") (str "google.protobuf.ServiceDescriptorProto");
      many_of (str "extension") (str "google.protobuf.FieldDescriptorProto");
      one_of (str "options") (str "google.protobuf.FileOptions");
      one_of (str "sourceCodeInfo") (str "google.protobuf.SourceCodeInfo");
      one (str "syntax") StringKind];
   declared file_0 (str "google.protobuf.DescriptorProto") (str "DescriptorProto")
     [one (str "name") StringKind;
      many_of (str "field") (str "google.protobuf.FieldDescriptorProto");
      many_of (str "extension") (str "google.protobuf.FieldDescriptorProto");
      many_of (str "nestedType") (str "google.protobuf.DescriptorProto");
      many_of (str "enumType") (str "google.protobuf.EnumDescriptorProto");
      many_of (str "extensionRange") (str "google.protobuf.DescriptorProto.ExtensionRange");
      many_of (str "oneofDecl") (str "google.protobuf.OneofDescriptorProto");
      one_of (str "options") (str "google.protobuf.MessageOptions");
      many_of (str "reservedRange") (str "google.protobuf.DescriptorProto.ReservedRange");
      many (str "reservedName") StringKind];
   declared file_0 (str "google.protobuf.DescriptorProto.ExtensionRange") (str "ExtensionRange")
     [one (str "start") Int32Kind;
      one (str "end") Int32Kind;
      one_of (str "options") (str "google.protobuf.ExtensionRangeOptions")];
   declared file_0 (str "google.protobuf.DescriptorProto.ReservedRange") (str "ReservedRange")
     [one (str "start") Int32Kind; one (str "end") Int32Kind];
   declared file_0 (str "google.protobuf.ExtensionRangeOptions") (str "ExtensionRangeOptions")
     [many_of (str "uninterpretedOption") (str "google.protobuf.UninterpretedOption")];
   declared file_0 (str "google.protobuf.FieldDescriptorProto") (str "FieldDescriptorProto")
     [one (str "name") StringKind;
      one (str "number") Int32Kind;
      one (str "label") EnumKind;
      one (str "type") EnumKind;
      one (str "typeName") StringKind;
      one (str "extendee") StringKind;
      one (str "defaultValue") StringKind;
      one (str "oneofIndex") Int32Kind;
      one (str "10") StringKind;
      one_of (str "options") (str "google.protobuf.FieldOptions");
      one (str "proto3Optional") BoolKind];
   declared file_0 (str "google.protobuf.OneofDescriptorProto") (str "OneofDescriptorProto")
     [one (str "name") StringKind; one_of (str "options") (str "google.protobuf.OneofOptions")];
   declared file_0 (str "google.protobuf.EnumDescriptorProto") (str "EnumDescriptorProto")
     [one (str "name") StringKind;
      many_of (str "value") (str "google.protobuf.EnumValueDescriptorProto");
      one_of (str "options") (str "google.protobuf.EnumOptions");
      many_of (str "reservedRange") (str "google.protobuf.EnumDescriptorProto.EnumReservedRange");
      many (str "reservedName") StringKind];
   declared file_0 (str "google.protobuf.EnumDescriptorProto.EnumReservedRange") (str "EnumReservedRange")
     [one (str "start") Int32Kind; one (str "end") Int32Kind];
   declared file_0 (str "google.protobuf.EnumValueDescriptorProto") (str "EnumValueDescriptorProto")
     [one (str "name") StringKind;
      one (str "number") Int32Kind;
      one_of (str "options") (str "google.protobuf.EnumValueOptions")];
   declared file_0 (str "google.protobuf.ServiceDescriptorProto") (str "ServiceDescriptorProto")
     [one (str "name") StringKind;
      many_of (str "method") (str "google.protobuf.MethodDescriptorProto");
      one_of (str "options") (str "google.protobuf.ServiceOptions")];
   declared file_0 (str "google.protobuf.MethodDescriptorProto") (str "MethodDescriptorProto")
     [one (str "name") StringKind;
      one (str "inputType") StringKind;
      one (str "outputType") StringKind;
      one_of (str "options") (str "google.protobuf.MethodOptions");
      one (str "clientStreaming") BoolKind;
      one (str "serverStreaming") BoolKind];
   declared file_0 (str "google.protobuf.FileOptions") (str "FileOptions")
     [one (str "javaPackage") StringKind;
      one (str "javaOuterClassname") StringKind;
      one (str "javaMultipleFiles") BoolKind;
      one (str "javaGenerateEqualsAndHash") BoolKind;
      one (str "javaStringCheckUtf8") BoolKind;
      one (str "optimizeFor") EnumKind;
      one (str "goPackage") StringKind;
      one (str "ccGenericServices") BoolKind;
      one (str "javaGenericServices") BoolKind;
      one (str "pyGenericServices") BoolKind;
      one (str "phpGenericServices") BoolKind;
      one (str "deprecated") BoolKind;
      one (str "ccEnableArenas") BoolKind;
      one (str "objcClassPrefix") StringKind;
      one (str "csharpNamespace") StringKind;
      one (str "swiftPrefix") StringKind;
      one (str "phpClassPrefix") StringKind;
      one (str "phpNamespace") StringKind;
      one (str "phpMetadataNamespace") StringKind;
      one (str "rubyPackage") StringKind;
      many_of (str "uninterpretedOption") (str "google.protobuf.UninterpretedOption")];
   declared file_0 (str "google.protobuf.MessageOptions") (str "MessageOptions")
     [one (str "messageSetWireFormat") BoolKind;
      one (str "noStandardDescriptorAccessor") BoolKind;
      one (str "deprecated") BoolKind;
      one (str "mapEntry") BoolKind;
      many_of (str "uninterpretedOption") (str "google.protobuf.UninterpretedOption")];
   declared file_0 (str "google.protobuf.FieldOptions") (str "FieldOptions")
     [one (str "ctype") EnumKind;
      one (str "packed") BoolKind;
      one (str "jstype") EnumKind;
      one (str "lazy") BoolKind;
      one (str "deprecated") BoolKind;
      one (str "weak") BoolKind;
      many_of (str "uninterpretedOption") (str "google.protobuf.UninterpretedOption")];
   declared file_0 (str "google.protobuf.OneofOptions") (str "OneofOptions")
     [many_of (str "uninterpretedOption") (str "google.protobuf.UninterpretedOption")];
   declared file_0 (str "google.protobuf.EnumOptions") (str "EnumOptions")
     [one (str "allowAlias") BoolKind;
      one (str "deprecated") BoolKind;
      many_of (str "uninterpretedOption") (str "google.protobuf.UninterpretedOption")];
   declared file_0 (str "google.protobuf.EnumValueOptions") (str "EnumValueOptions")
     [one (str "deprecated") BoolKind;
      many_of (str "uninterpretedOption") (str "google.protobuf.UninterpretedOption")];
   declared file_0 (str "google.protobuf.ServiceOptions") (str "ServiceOptions")
     [one (str "deprecated") BoolKind;
      many_of (str "uninterpretedOption") (str "google.protobuf.UninterpretedOption")];
   declared file_0 (str "google.protobuf.MethodOptions") (str "MethodOptions")
     [one (str "deprecated") BoolKind;
      one (str "idempotencyLevel") EnumKind;
      many_of (str "uninterpretedOption") (str "google.protobuf.UninterpretedOption")];
   declared file_0 (str "google.protobuf.UninterpretedOption") (str "UninterpretedOption")
     [many_of (str "name") (str "google.protobuf.UninterpretedOption.NamePart");
      one (str "identifierValue") StringKind;
      one (str "positiveIntValue") Uint64Kind;
      one (str "negativeIntValue") Int64Kind;
      one (str "doubleValue") DoubleKind;
      one (str "stringValue") BytesKind;
      one (str "aggregateValue") StringKind];
   declared file_0 (str "google.protobuf.UninterpretedOption.NamePart") (str "NamePart")
     [one (str "namePart") StringKind; one (str "isExtension") BoolKind];
   declared file_0 (str "google.protobuf.SourceCodeInfo") (str "SourceCodeInfo")
     [many_of (str "location") (str "google.protobuf.SourceCodeInfo.Location")];
   declared file_0 (str "google.protobuf.SourceCodeInfo.Location") (str "Location")
     [many (str "path") Int32Kind;
      many (str "span") Int32Kind;
      one (str "leadingComments") StringKind;
      one (str "trailingComments") StringKind;
      many (str "leadingDetachedComments") StringKind];
   declared file_0 (str "google.protobuf.GeneratedCodeInfo") (str "GeneratedCodeInfo")
     [many_of (str "annotation") (str "google.protobuf.GeneratedCodeInfo.Annotation")];
   declared file_0 (str "google.protobuf.GeneratedCodeInfo.Annotation") (str "Annotation")
     [many (str "path") Int32Kind;
      one (str "sourceFile") StringKind;
      one (str "begin") Int32Kind;
      one (str "end") Int32Kind]].

(** core/modulegen/modulegen.proto:1-21. *)
Definition file_1 : filedesc :=
  file (str "core/modulegen/modulegen.proto") (str "tmos.core.modulegen")
    [str "google/protobuf/descriptor.proto"]
    [str "tmos.core.modulegen.StateTransitionDescriptor";
     str "tmos.core.modulegen.StateObjectDescriptor"].
Definition file_1_messages : list message :=
  [declared file_1 (str "tmos.core.modulegen.StateTransitionDescriptor") (str "StateTransitionDescriptor")
     [];
   declared file_1 (str "tmos.core.modulegen.StateObjectDescriptor") (str "StateObjectDescriptor")
     [one (str "singleton") BoolKind;
      one (str "primaryKey") StringKind;
      many (str "secondaryKeys") StringKind]].

(** core/meta/meta.proto:1-24. *)
Definition file_2 : filedesc :=
  file (str "core/meta/meta.proto") (str "tmos.meta.v1alpha1")
    []
    [str "tmos.meta.v1alpha1.APIDefinition"].
Definition file_2_messages : list message :=
  [declared file_2 (str "tmos.meta.v1alpha1.APIDefinition") (str "APIDefinition")
     [one (str "group") StringKind; one (str "kind") StringKind; one (str "apiType") EnumKind]].

(** core/schema/schema.proto:1-21. *)
Definition file_3 : filedesc :=
  file (str "core/schema/schema.proto") (str "tmos.core.schema.v1")
    []
    [str "tmos.core.schema.v1.Definition"].
Definition file_3_messages : list message :=
  [declared file_3 (str "tmos.core.schema.v1.Definition") (str "Definition")
     [one (str "singleton") BoolKind;
      one (str "primaryKey") StringKind;
      many (str "secondaryKeys") StringKind]].

(** core/module/module.proto:1-40. *)
Definition file_4 : filedesc :=
  file (str "core/module/module.proto") (str "tmos.core.module.v1")
    [str "core/meta/meta.proto";
     str "core/schema/schema.proto";
     str "google/protobuf/descriptor.proto"]
    [str "tmos.core.module.v1.Descriptor";
     str "tmos.core.module.v1.StateObject";
     str "tmos.core.module.v1.StateTransition";
     str "tmos.core.module.v1.Dependency"].
Definition file_4_messages : list message :=
  [declared file_4 (str "tmos.core.module.v1.Descriptor") (str "Descriptor")
     [one (str "name") StringKind;
      many_of (str "stateObjects") (str "tmos.core.module.v1.StateObject");
      many_of (str "stateTransitions") (str "tmos.core.module.v1.StateTransition");
      many_of (str "requiredResources") (str "tmos.core.module.v1.Dependency")];
   declared file_4 (str "tmos.core.module.v1.StateObject") (str "StateObject")
     [one_of (str "apiDefinition") (str "tmos.meta.v1alpha1.APIDefinition");
      one_of (str "schemaDefinition") (str "tmos.core.schema.v1.Definition");
      one (str "protobufFullname") StringKind;
      many_of (str "protoDependencies") (str "google.protobuf.FileDescriptorProto")];
   declared file_4 (str "tmos.core.module.v1.StateTransition") (str "StateTransition")
     [one_of (str "apiDefinition") (str "tmos.meta.v1alpha1.APIDefinition");
      one (str "protobufFullname") StringKind;
      many_of (str "protoDependencies") (str "google.protobuf.FileDescriptorProto")];
   declared file_4 (str "tmos.core.module.v1.Dependency") (str "Dependency")
     [one_of (str "resource") (str "tmos.meta.v1alpha1.APIDefinition")]].

(** core/rbac/xt/rbac_extension.proto:1-18. *)
Definition file_5 : filedesc :=
  file (str "core/rbac/xt/rbac_extension.proto") (str "tmos.core.rbac.xt")
    [str "google/protobuf/descriptor.proto"]
    [str "tmos.core.rbac.xt.StateTransitionAccessControl"].
Definition file_5_messages : list message :=
  [declared file_5 (str "tmos.core.rbac.xt.StateTransitionAccessControl") (str "StateTransitionAccessControl")
     [one (str "external") BoolKind]].

(** core/runtime/v1alpha1/module.proto:1-25. *)
Definition file_6 : filedesc :=
  file (str "core/runtime/v1alpha1/module.proto") (str "tmos.runtime.v1alpha1")
    [str "core/modulegen/modulegen.proto";
     str "core/module/module.proto";
     str "core/rbac/xt/rbac_extension.proto"]
    [str "tmos.runtime.v1alpha1.ModuleDescriptors";
     str "tmos.runtime.v1alpha1.CreateModuleDescriptors"].
Definition file_6_messages : list message :=
  [declared file_6 (str "tmos.runtime.v1alpha1.ModuleDescriptors") (str "ModuleDescriptors")
     [many_of (str "modules") (str "tmos.core.module.v1.Descriptor")];
   declared file_6 (str "tmos.runtime.v1alpha1.CreateModuleDescriptors") (str "CreateModuleDescriptors")
     [many_of (str "modules") (str "tmos.core.module.v1.Descriptor")]].

(** core/abci/tendermint/crypto/proof.proto:1-39. *)
Definition file_7 : filedesc :=
  file (str "core/abci/tendermint/crypto/proof.proto") (str "tendermint.crypto")
    []
    [str "tendermint.crypto.Proof";
     str "tendermint.crypto.ValueOp";
     str "tendermint.crypto.DominoOp";
     str "tendermint.crypto.ProofOp";
     str "tendermint.crypto.ProofOps"].
Definition file_7_messages : list message :=
  [declared file_7 (str "tendermint.crypto.Proof") (str "Proof")
     [one (str "total") Int64Kind;
      one (str "index") Int64Kind;
      one (str "leafHash") BytesKind;
      many (str "aunts") BytesKind];
   declared file_7 (str "tendermint.crypto.ValueOp") (str "ValueOp")
     [one (str "key") BytesKind; one_of (str "proof") (str "tendermint.crypto.Proof")];
   declared file_7 (str "tendermint.crypto.DominoOp") (str "DominoOp")
     [one (str "key") StringKind; one (str "input") StringKind; one (str "output") StringKind];
   declared file_7 (str "tendermint.crypto.ProofOp") (str "ProofOp")
     [one (str "type") StringKind; one (str "key") BytesKind; one (str "data") BytesKind];
   declared file_7 (str "tendermint.crypto.ProofOps") (str "ProofOps")
     [many_of (str "ops") (str "tendermint.crypto.ProofOp")]].

(** third_party/proto/google/protobuf/timestamp.proto:1-147. *)
Definition file_8 : filedesc :=
  file (str "google/protobuf/timestamp.proto") (str "google.protobuf")
    []
    [str "google.protobuf.Timestamp"].
Definition file_8_messages : list message :=
  [declared file_8 (str "google.protobuf.Timestamp") (str "Timestamp")
     [one (str "seconds") Int64Kind; one (str "nanos") Int32Kind]].

(** core/abci/tendermint/version/types.proto:1-12. *)
Definition file_9 : filedesc :=
  file (str "core/abci/tendermint/version/types.proto") (str "tendermint.version")
    []
    [str "tendermint.version.Consensus"].
Definition file_9_messages : list message :=
  [declared file_9 (str "tendermint.version.Consensus") (str "Consensus")
     [one (str "block") Uint64Kind; one (str "app") Uint64Kind]].

(** core/abci/tendermint/crypto/keys.proto:1-13. *)
Definition file_10 : filedesc :=
  file (str "core/abci/tendermint/crypto/keys.proto") (str "tendermint.crypto")
    []
    [str "tendermint.crypto.PublicKey"].
Definition file_10_messages : list message :=
  [declared file_10 (str "tendermint.crypto.PublicKey") (str "PublicKey")
     [one (str "ed25519") BytesKind; one (str "secp256k1") BytesKind; one (str "sr25519") BytesKind]].

(** core/abci/tendermint/types/types.proto:1-166. *)
Definition file_11 : filedesc :=
  file (str "core/abci/tendermint/types/types.proto") (str "tendermint.types")
    [str "google/protobuf/timestamp.proto";
     str "core/abci/tendermint/crypto/proof.proto";
     str "core/abci/tendermint/version/types.proto";
     str "core/abci/tendermint/crypto/keys.proto"]
    [str "tendermint.types.PartSetHeader";
     str "tendermint.types.Part";
     str "tendermint.types.BlockID";
     str "tendermint.types.Header";
     str "tendermint.types.Data";
     str "tendermint.types.Vote";
     str "tendermint.types.Commit";
     str "tendermint.types.CommitSig";
     str "tendermint.types.Proposal";
     str "tendermint.types.SignedHeader";
     str "tendermint.types.LightBlock";
     str "tendermint.types.BlockMeta";
     str "tendermint.types.TxProof";
     str "tendermint.types.ValidatorSet";
     str "tendermint.types.Validator";
     str "tendermint.types.SimpleValidator"].
Definition file_11_messages : list message :=
  [declared file_11 (str "tendermint.types.PartSetHeader") (str "PartSetHeader")
     [one (str "total") Uint32Kind; one (str "hash") BytesKind];
   declared file_11 (str "tendermint.types.Part") (str "Part")
     [one (str "index") Uint32Kind;
      one (str "bytes") BytesKind;
      one_of (str "proof") (str "tendermint.crypto.Proof")];
   declared file_11 (str "tendermint.types.BlockID") (str "BlockID")
     [one (str "hash") BytesKind;
      one_of (str "partSetHeader") (str "tendermint.types.PartSetHeader")];
   declared file_11 (str "tendermint.types.Header") (str "Header")
     [one_of (str "version") (str "tendermint.version.Consensus");
      one (str "chainId") StringKind;
      one (str "height") Int64Kind;
      one_of (str "time") (str "google.protobuf.Timestamp");
      one_of (str "lastBlockId") (str "tendermint.types.BlockID");
      one (str "lastCommitHash") BytesKind;
      one (str "dataHash") BytesKind;
      one (str "validatorsHash") BytesKind;
      one (str "nextValidatorsHash") BytesKind;
      one (str "consensusHash") BytesKind;
      one (str "appHash") BytesKind;
      one (str "lastResultsHash") BytesKind;
      one (str "evidenceHash") BytesKind;
      one (str "proposerAddress") BytesKind];
   declared file_11 (str "tendermint.types.Data") (str "Data")
     [many (str "txs") BytesKind];
   declared file_11 (str "tendermint.types.Vote") (str "Vote")
     [one (str "type") EnumKind;
      one (str "height") Int64Kind;
      one (str "round") Int32Kind;
      one_of (str "blockId") (str "tendermint.types.BlockID");
      one_of (str "timestamp") (str "google.protobuf.Timestamp");
      one (str "validatorAddress") BytesKind;
      one (str "validatorIndex") Int32Kind;
      one (str "signature") BytesKind];
   declared file_11 (str "tendermint.types.Commit") (str "Commit")
     [one (str "height") Int64Kind;
      one (str "round") Int32Kind;
      one_of (str "blockId") (str "tendermint.types.BlockID");
      many_of (str "signatures") (str "tendermint.types.CommitSig")];
   declared file_11 (str "tendermint.types.CommitSig") (str "CommitSig")
     [one (str "blockIdFlag") EnumKind;
      one (str "validatorAddress") BytesKind;
      one_of (str "timestamp") (str "google.protobuf.Timestamp");
      one (str "signature") BytesKind];
   declared file_11 (str "tendermint.types.Proposal") (str "Proposal")
     [one (str "type") EnumKind;
      one (str "height") Int64Kind;
      one (str "round") Int32Kind;
      one (str "polRound") Int32Kind;
      one_of (str "blockId") (str "tendermint.types.BlockID");
      one_of (str "timestamp") (str "google.protobuf.Timestamp");
      one (str "signature") BytesKind];
   declared file_11 (str "tendermint.types.SignedHeader") (str "SignedHeader")
     [one_of (str "header") (str "tendermint.types.Header");
      one_of (str "commit") (str "tendermint.types.Commit")];
   declared file_11 (str "tendermint.types.LightBlock") (str "LightBlock")
     [one_of (str "signedHeader") (str "tendermint.types.SignedHeader");
      one_of (str "validatorSet") (str "tendermint.types.ValidatorSet")];
   declared file_11 (str "tendermint.types.BlockMeta") (str "BlockMeta")
     [one_of (str "blockId") (str "tendermint.types.BlockID");
      one (str "blockSize") Int64Kind;
      one_of (str "header") (str "tendermint.types.Header");
      one (str "numTxs") Int64Kind];
   declared file_11 (str "tendermint.types.TxProof") (str "TxProof")
     [one (str "rootHash") BytesKind;
      one (str "data") BytesKind;
      one_of (str "proof") (str "tendermint.crypto.Proof")];
   declared file_11 (str "tendermint.types.ValidatorSet") (str "ValidatorSet")
     [many_of (str "validators") (str "tendermint.types.Validator");
      one_of (str "proposer") (str "tendermint.types.Validator");
      one (str "totalVotingPower") Int64Kind];
   declared file_11 (str "tendermint.types.Validator") (str "Validator")
     [one (str "address") BytesKind;
      one_of (str "pubKey") (str "tendermint.crypto.PublicKey");
      one (str "votingPower") Int64Kind;
      one (str "proposerPriority") Int64Kind];
   declared file_11 (str "tendermint.types.SimpleValidator") (str "SimpleValidator")
     [one_of (str "pubKey") (str "tendermint.crypto.PublicKey");
      one (str "votingPower") Int64Kind]].

(** third_party/proto/google/protobuf/duration.proto:1-116. *)
Definition file_12 : filedesc :=
  file (str "google/protobuf/duration.proto") (str "google.protobuf")
    []
    [str "google.protobuf.Duration"].
Definition file_12_messages : list message :=
  [declared file_12 (str "google.protobuf.Duration") (str "Duration")
     [one (str "seconds") Int64Kind; one (str "nanos") Int32Kind]].

(** core/abci/tendermint/types/params.proto:1-65. *)
Definition file_13 : filedesc :=
  file (str "core/abci/tendermint/types/params.proto") (str "tendermint.types")
    [str "google/protobuf/duration.proto"]
    [str "tendermint.types.ConsensusParams";
     str "tendermint.types.BlockParams";
     str "tendermint.types.EvidenceParams";
     str "tendermint.types.ValidatorParams";
     str "tendermint.types.VersionParams";
     str "tendermint.types.HashedParams"].
Definition file_13_messages : list message :=
  [declared file_13 (str "tendermint.types.ConsensusParams") (str "ConsensusParams")
     [one_of (str "block") (str "tendermint.types.BlockParams");
      one_of (str "evidence") (str "tendermint.types.EvidenceParams");
      one_of (str "validator") (str "tendermint.types.ValidatorParams");
      one_of (str "version") (str "tendermint.types.VersionParams")];
   declared file_13 (str "tendermint.types.BlockParams") (str "BlockParams")
     [one (str "maxBytes") Int64Kind; one (str "maxGas") Int64Kind];
   declared file_13 (str "tendermint.types.EvidenceParams") (str "EvidenceParams")
     [one (str "maxAgeNumBlocks") Int64Kind;
      one_of (str "maxAgeDuration") (str "google.protobuf.Duration");
      one (str "maxBytes") Int64Kind];
   declared file_13 (str "tendermint.types.ValidatorParams") (str "ValidatorParams")
     [many (str "pubKeyTypes") StringKind];
   declared file_13 (str "tendermint.types.VersionParams") (str "VersionParams")
     [one (str "appVersion") Uint64Kind];
   declared file_13 (str "tendermint.types.HashedParams") (str "HashedParams")
     [one (str "blockMaxBytes") Int64Kind; one (str "blockMaxGas") Int64Kind]].

(** core/abci/tendermint/abci/types.proto:1-357. *)
Definition file_14 : filedesc :=
  file (str "core/abci/tendermint/abci/types.proto") (str "tendermint.abci")
    [str "core/abci/tendermint/crypto/proof.proto";
     str "core/abci/tendermint/types/types.proto";
     str "core/abci/tendermint/crypto/keys.proto";
     str "core/abci/tendermint/types/params.proto";
     str "google/protobuf/timestamp.proto"]
    [str "tendermint.abci.Request";
     str "tendermint.abci.RequestEcho";
     str "tendermint.abci.RequestFlush";
     str "tendermint.abci.RequestInfo";
     str "tendermint.abci.RequestInitChain";
     str "tendermint.abci.RequestQuery";
     str "tendermint.abci.RequestBeginBlock";
     str "tendermint.abci.RequestCheckTx";
     str "tendermint.abci.RequestDeliverTx";
     str "tendermint.abci.RequestEndBlock";
     str "tendermint.abci.RequestCommit";
     str "tendermint.abci.RequestListSnapshots";
     str "tendermint.abci.RequestOfferSnapshot";
     str "tendermint.abci.RequestLoadSnapshotChunk";
     str "tendermint.abci.RequestApplySnapshotChunk";
     str "tendermint.abci.Response";
     str "tendermint.abci.ResponseException";
     str "tendermint.abci.ResponseEcho";
     str "tendermint.abci.ResponseFlush";
     str "tendermint.abci.ResponseInfo";
     str "tendermint.abci.ResponseInitChain";
     str "tendermint.abci.ResponseQuery";
     str "tendermint.abci.ResponseBeginBlock";
     str "tendermint.abci.ResponseCheckTx";
     str "tendermint.abci.ResponseDeliverTx";
     str "tendermint.abci.ResponseEndBlock";
     str "tendermint.abci.ResponseCommit";
     str "tendermint.abci.ResponseListSnapshots";
     str "tendermint.abci.ResponseOfferSnapshot";
     str "tendermint.abci.ResponseLoadSnapshotChunk";
     str "tendermint.abci.ResponseApplySnapshotChunk";
     str "tendermint.abci.LastCommitInfo";
     str "tendermint.abci.Event";
     str "tendermint.abci.EventAttribute";
     str "tendermint.abci.TxResult";
     str "tendermint.abci.Validator";
     str "tendermint.abci.ValidatorUpdate";
     str "tendermint.abci.VoteInfo";
     str "tendermint.abci.Evidence";
     str "tendermint.abci.Snapshot"].
Definition file_14_messages : list message :=
  [declared file_14 (str "tendermint.abci.Request") (str "Request")
     [one_of (str "echo") (str "tendermint.abci.RequestEcho");
      one_of (str "flush") (str "tendermint.abci.RequestFlush");
      one_of (str "info") (str "tendermint.abci.RequestInfo");
      one_of (str "initChain") (str "tendermint.abci.RequestInitChain");
      one_of (str "query") (str "tendermint.abci.RequestQuery");
      one_of (str "beginBlock") (str "tendermint.abci.RequestBeginBlock");
      one_of (str "checkTx") (str "tendermint.abci.RequestCheckTx");
      one_of (str "deliverTx") (str "tendermint.abci.RequestDeliverTx");
      one_of (str "endBlock") (str "tendermint.abci.RequestEndBlock");
      one_of (str "commit") (str "tendermint.abci.RequestCommit");
      one_of (str "listSnapshots") (str "tendermint.abci.RequestListSnapshots");
      one_of (str "offerSnapshot") (str "tendermint.abci.RequestOfferSnapshot");
      one_of (str "loadSnapshotChunk") (str "tendermint.abci.RequestLoadSnapshotChunk");
      one_of (str "applySnapshotChunk") (str "tendermint.abci.RequestApplySnapshotChunk")];
   declared file_14 (str "tendermint.abci.RequestEcho") (str "RequestEcho")
     [one (str "message") StringKind];
   declared file_14 (str "tendermint.abci.RequestFlush") (str "RequestFlush")
     [];
   declared file_14 (str "tendermint.abci.RequestInfo") (str "RequestInfo")
     [one (str "version") StringKind;
      one (str "blockVersion") Uint64Kind;
      one (str "p2pVersion") Uint64Kind;
      one (str "abciVersion") StringKind];
   declared file_14 (str "tendermint.abci.RequestInitChain") (str "RequestInitChain")
     [one_of (str "time") (str "google.protobuf.Timestamp");
      one (str "chainId") StringKind;
      one_of (str "consensusParams") (str "tendermint.types.ConsensusParams");
      many_of (str "validators") (str "tendermint.abci.ValidatorUpdate");
      one (str "appStateBytes") BytesKind;
      one (str "initialHeight") Int64Kind];
   declared file_14 (str "tendermint.abci.RequestQuery") (str "RequestQuery")
     [one (str "data") BytesKind;
      one (str "path") StringKind;
      one (str "height") Int64Kind;
      one (str "prove") BoolKind];
   declared file_14 (str "tendermint.abci.RequestBeginBlock") (str "RequestBeginBlock")
     [one (str "hash") BytesKind;
      one_of (str "header") (str "tendermint.types.Header");
      one_of (str "lastCommitInfo") (str "tendermint.abci.LastCommitInfo");
      many_of (str "byzantineValidators") (str "tendermint.abci.Evidence")];
   declared file_14 (str "tendermint.abci.RequestCheckTx") (str "RequestCheckTx")
     [one (str "tx") BytesKind; one (str "type") EnumKind];
   declared file_14 (str "tendermint.abci.RequestDeliverTx") (str "RequestDeliverTx")
     [one (str "tx") BytesKind];
   declared file_14 (str "tendermint.abci.RequestEndBlock") (str "RequestEndBlock")
     [one (str "height") Int64Kind];
   declared file_14 (str "tendermint.abci.RequestCommit") (str "RequestCommit")
     [];
   declared file_14 (str "tendermint.abci.RequestListSnapshots") (str "RequestListSnapshots")
     [];
   declared file_14 (str "tendermint.abci.RequestOfferSnapshot") (str "RequestOfferSnapshot")
     [one_of (str "snapshot") (str "tendermint.abci.Snapshot"); one (str "appHash") BytesKind];
   declared file_14 (str "tendermint.abci.RequestLoadSnapshotChunk") (str "RequestLoadSnapshotChunk")
     [one (str "height") Uint64Kind; one (str "format") Uint32Kind; one (str "chunk") Uint32Kind];
   declared file_14 (str "tendermint.abci.RequestApplySnapshotChunk") (str "RequestApplySnapshotChunk")
     [one (str "index") Uint32Kind; one (str "chunk") BytesKind; one (str "sender") StringKind];
   declared file_14 (str "tendermint.abci.Response") (str "Response")
     [one_of (str "exception") (str "tendermint.abci.ResponseException");
      one_of (str "echo") (str "tendermint.abci.ResponseEcho");
      one_of (str "flush") (str "tendermint.abci.ResponseFlush");
      one_of (str "info") (str "tendermint.abci.ResponseInfo");
      one_of (str "initChain") (str "tendermint.abci.ResponseInitChain");
      one_of (str "query") (str "tendermint.abci.ResponseQuery");
      one_of (str "beginBlock") (str "tendermint.abci.ResponseBeginBlock");
      one_of (str "checkTx") (str "tendermint.abci.ResponseCheckTx");
      one_of (str "deliverTx") (str "tendermint.abci.ResponseDeliverTx");
      one_of (str "endBlock") (str "tendermint.abci.ResponseEndBlock");
      one_of (str "commit") (str "tendermint.abci.ResponseCommit");
      one_of (str "listSnapshots") (str "tendermint.abci.ResponseListSnapshots");
      one_of (str "offerSnapshot") (str "tendermint.abci.ResponseOfferSnapshot");
      one_of (str "loadSnapshotChunk") (str "tendermint.abci.ResponseLoadSnapshotChunk");
      one_of (str "applySnapshotChunk") (str "tendermint.abci.ResponseApplySnapshotChunk")];
   declared file_14 (str "tendermint.abci.ResponseException") (str "ResponseException")
     [one (str "error") StringKind];
   declared file_14 (str "tendermint.abci.ResponseEcho") (str "ResponseEcho")
     [one (str "message") StringKind];
   declared file_14 (str "tendermint.abci.ResponseFlush") (str "ResponseFlush")
     [];
   declared file_14 (str "tendermint.abci.ResponseInfo") (str "ResponseInfo")
     [one (str "data") StringKind;
      one (str "version") StringKind;
      one (str "appVersion") Uint64Kind;
      one (str "lastBlockHeight") Int64Kind;
      one (str "lastBlockAppHash") BytesKind];
   declared file_14 (str "tendermint.abci.ResponseInitChain") (str "ResponseInitChain")
     [one_of (str "consensusParams") (str "tendermint.types.ConsensusParams");
      many_of (str "validators") (str "tendermint.abci.ValidatorUpdate");
      one (str "appHash") BytesKind];
   declared file_14 (str "tendermint.abci.ResponseQuery") (str "ResponseQuery")
     [one (str "code") Uint32Kind;
      one (str "log") StringKind;
      one (str "info") StringKind;
      one (str "index") Int64Kind;
      one (str "key") BytesKind;
      one (str "value") BytesKind;
      one_of (str "proofOps") (str "tendermint.crypto.ProofOps");
      one (str "height") Int64Kind;
      one (str "codespace") StringKind];
   declared file_14 (str "tendermint.abci.ResponseBeginBlock") (str "ResponseBeginBlock")
     [many_of (str "events") (str "tendermint.abci.Event")];
   declared file_14 (str "tendermint.abci.ResponseCheckTx") (str "ResponseCheckTx")
     [one (str "code") Uint32Kind;
      one (str "data") BytesKind;
      one (str "log") StringKind;
      one (str "info") StringKind;
      one (str "gasWanted") Int64Kind;
      one (str "gasUsed") Int64Kind;
      many_of (str "events") (str "tendermint.abci.Event");
      one (str "codespace") StringKind];
   declared file_14 (str "tendermint.abci.ResponseDeliverTx") (str "ResponseDeliverTx")
     [one (str "code") Uint32Kind;
      one (str "data") BytesKind;
      one (str "log") StringKind;
      one (str "info") StringKind;
      one (str "gas_wanted") Int64Kind;
      one (str "gas_used") Int64Kind;
      many_of (str "events") (str "tendermint.abci.Event");
      one (str "codespace") StringKind];
   declared file_14 (str "tendermint.abci.ResponseEndBlock") (str "ResponseEndBlock")
     [many_of (str "validatorUpdates") (str "tendermint.abci.ValidatorUpdate");
      one_of (str "consensusParamUpdates") (str "tendermint.types.ConsensusParams");
      many_of (str "events") (str "tendermint.abci.Event")];
   declared file_14 (str "tendermint.abci.ResponseCommit") (str "ResponseCommit")
     [one (str "data") BytesKind; one (str "retainHeight") Int64Kind];
   declared file_14 (str "tendermint.abci.ResponseListSnapshots") (str "ResponseListSnapshots")
     [many_of (str "snapshots") (str "tendermint.abci.Snapshot")];
   declared file_14 (str "tendermint.abci.ResponseOfferSnapshot") (str "ResponseOfferSnapshot")
     [one (str "result") EnumKind];
   declared file_14 (str "tendermint.abci.ResponseLoadSnapshotChunk") (str "ResponseLoadSnapshotChunk")
     [one (str "chunk") BytesKind];
   declared file_14 (str "tendermint.abci.ResponseApplySnapshotChunk") (str "ResponseApplySnapshotChunk")
     [one (str "result") EnumKind;
      many (str "refetchChunks") Uint32Kind;
      many (str "rejectSenders") StringKind];
   declared file_14 (str "tendermint.abci.LastCommitInfo") (str "LastCommitInfo")
     [one (str "round") Int32Kind; many_of (str "votes") (str "tendermint.abci.VoteInfo")];
   declared file_14 (str "tendermint.abci.Event") (str "Event")
     [one (str "type") StringKind;
      many_of (str "attributes") (str "tendermint.abci.EventAttribute")];
   declared file_14 (str "tendermint.abci.EventAttribute") (str "EventAttribute")
     [one (str "key") BytesKind; one (str "value") BytesKind; one (str "index") BoolKind];
   declared file_14 (str "tendermint.abci.TxResult") (str "TxResult")
     [one (str "height") Int64Kind;
      one (str "index") Uint32Kind;
      one (str "tx") BytesKind;
      one_of (str "result") (str "tendermint.abci.ResponseDeliverTx")];
   declared file_14 (str "tendermint.abci.Validator") (str "Validator")
     [one (str "address") BytesKind; one (str "power") Int64Kind];
   declared file_14 (str "tendermint.abci.ValidatorUpdate") (str "ValidatorUpdate")
     [one_of (str "pubKey") (str "tendermint.crypto.PublicKey"); one (str "power") Int64Kind];
   declared file_14 (str "tendermint.abci.VoteInfo") (str "VoteInfo")
     [one_of (str "validator") (str "tendermint.abci.Validator");
      one (str "signedLastBlock") BoolKind];
   declared file_14 (str "tendermint.abci.Evidence") (str "Evidence")
     [one (str "type") EnumKind;
      one_of (str "validator") (str "tendermint.abci.Validator");
      one (str "height") Int64Kind;
      one_of (str "time") (str "google.protobuf.Timestamp");
      one (str "totalVotingPower") Int64Kind];
   declared file_14 (str "tendermint.abci.Snapshot") (str "Snapshot")
     [one (str "height") Uint64Kind;
      one (str "format") Uint32Kind;
      one (str "chunks") Uint32Kind;
      one (str "hash") BytesKind;
      one (str "metadata") BytesKind]].

(** core/abci/v1alpha1/abci.proto:1-136. *)
Definition file_15 : filedesc :=
  file (str "core/abci/v1alpha1/abci.proto") (str "tmos.abci.v1alpha1")
    [str "core/abci/tendermint/abci/types.proto";
     str "core/modulegen/modulegen.proto";
     str "core/rbac/xt/rbac_extension.proto"]
    [str "tmos.abci.v1alpha1.CurrentBlock";
     str "tmos.abci.v1alpha1.Stage";
     str "tmos.abci.v1alpha1.InitChainInfo";
     str "tmos.abci.v1alpha1.BeginBlockState";
     str "tmos.abci.v1alpha1.CheckTxState";
     str "tmos.abci.v1alpha1.DeliverTxState";
     str "tmos.abci.v1alpha1.ValidatorUpdates";
     str "tmos.abci.v1alpha1.EndBlockState";
     str "tmos.abci.v1alpha1.MsgSetBeginBlockState";
     str "tmos.abci.v1alpha1.MsgSetCheckTxState";
     str "tmos.abci.v1alpha1.MsgSetDeliverTxState";
     str "tmos.abci.v1alpha1.MsgSetEndBlockState";
     str "tmos.abci.v1alpha1.MsgSetInitChain";
     str "tmos.abci.v1alpha1.MsgSetValidatorUpdates"].
Definition file_15_messages : list message :=
  [declared file_15 (str "tmos.abci.v1alpha1.CurrentBlock") (str "CurrentBlock")
     [one (str "blockNumber") Uint64Kind];
   declared file_15 (str "tmos.abci.v1alpha1.Stage") (str "Stage")
     [one (str "stage") EnumKind];
   declared file_15 (str "tmos.abci.v1alpha1.InitChainInfo") (str "InitChainInfo")
     [one (str "chainId") StringKind];
   declared file_15 (str "tmos.abci.v1alpha1.BeginBlockState") (str "BeginBlockState")
     [one_of (str "beginBlock") (str "tendermint.abci.RequestBeginBlock")];
   declared file_15 (str "tmos.abci.v1alpha1.CheckTxState") (str "CheckTxState")
     [one_of (str "checkTx") (str "tendermint.abci.RequestCheckTx")];
   declared file_15 (str "tmos.abci.v1alpha1.DeliverTxState") (str "DeliverTxState")
     [one_of (str "deliverTx") (str "tendermint.abci.RequestDeliverTx")];
   declared file_15 (str "tmos.abci.v1alpha1.ValidatorUpdates") (str "ValidatorUpdates")
     [many_of (str "validatorUpdates") (str "tendermint.abci.ValidatorUpdate")];
   declared file_15 (str "tmos.abci.v1alpha1.EndBlockState") (str "EndBlockState")
     [one_of (str "endBlock") (str "tendermint.abci.RequestEndBlock")];
   declared file_15 (str "tmos.abci.v1alpha1.MsgSetBeginBlockState") (str "MsgSetBeginBlockState")
     [one_of (str "beginBlock") (str "tendermint.abci.RequestBeginBlock")];
   declared file_15 (str "tmos.abci.v1alpha1.MsgSetCheckTxState") (str "MsgSetCheckTxState")
     [one_of (str "checkTx") (str "tendermint.abci.RequestCheckTx")];
   declared file_15 (str "tmos.abci.v1alpha1.MsgSetDeliverTxState") (str "MsgSetDeliverTxState")
     [one_of (str "deliverTx") (str "tendermint.abci.RequestDeliverTx")];
   declared file_15 (str "tmos.abci.v1alpha1.MsgSetEndBlockState") (str "MsgSetEndBlockState")
     [one_of (str "endBlock") (str "tendermint.abci.RequestEndBlock")];
   declared file_15 (str "tmos.abci.v1alpha1.MsgSetInitChain") (str "MsgSetInitChain")
     [one_of (str "initChainInfo") (str "tmos.abci.v1alpha1.InitChainInfo")];
   declared file_15 (str "tmos.abci.v1alpha1.MsgSetValidatorUpdates") (str "MsgSetValidatorUpdates")
     [many_of (str "validatorUpdates") (str "tendermint.abci.ValidatorUpdate")]].

(** core/rbac/v1alpha1/rbac.proto:1-74. *)
Definition file_16 : filedesc :=
  file (str "core/rbac/v1alpha1/rbac.proto") (str "tmos.core.rbac.v1alpha1")
    [str "core/modulegen/modulegen.proto"; str "core/rbac/xt/rbac_extension.proto"]
    [str "tmos.core.rbac.v1alpha1.Params";
     str "tmos.core.rbac.v1alpha1.Role";
     str "tmos.core.rbac.v1alpha1.RoleBinding";
     str "tmos.core.rbac.v1alpha1.MsgCreateRole";
     str "tmos.core.rbac.v1alpha1.MsgBindRole"].
Definition file_16_messages : list message :=
  [declared file_16 (str "tmos.core.rbac.v1alpha1.Params") (str "Params")
     [];
   declared file_16 (str "tmos.core.rbac.v1alpha1.Role") (str "Role")
     [one (str "id") StringKind;
      many (str "gets") StringKind;
      many (str "lists") StringKind;
      many (str "creates") StringKind;
      many (str "updates") StringKind;
      many (str "deletes") StringKind;
      many (str "delivers") StringKind];
   declared file_16 (str "tmos.core.rbac.v1alpha1.RoleBinding") (str "RoleBinding")
     [one (str "subject") StringKind; one (str "roleRef") StringKind];
   declared file_16 (str "tmos.core.rbac.v1alpha1.MsgCreateRole") (str "MsgCreateRole")
     [one_of (str "newRole") (str "tmos.core.rbac.v1alpha1.Role")];
   declared file_16 (str "tmos.core.rbac.v1alpha1.MsgBindRole") (str "MsgBindRole")
     [one (str "roleId") StringKind; one (str "subject") StringKind]].

(** third_party/proto/google/protobuf/any.proto:1-158. *)
Definition file_17 : filedesc :=
  file (str "google/protobuf/any.proto") (str "google.protobuf")
    []
    [str "google.protobuf.Any"].
Definition file_17_messages : list message :=
  [declared file_17 (str "google.protobuf.Any") (str "Any")
     [one (str "typeUrl") StringKind; one (str "value") BytesKind]].

(** x/authn/v1alpha1/authn.proto:1-80. *)
Definition file_18 : filedesc :=
  file (str "x/authn/v1alpha1/authn.proto") (str "tmos.x.authn.v1alpha1")
    [str "google/protobuf/any.proto";
     str "core/modulegen/modulegen.proto";
     str "core/rbac/xt/rbac_extension.proto"]
    [str "tmos.x.authn.v1alpha1.MsgCreateAccount";
     str "tmos.x.authn.v1alpha1.MsgUpdateAccount";
     str "tmos.x.authn.v1alpha1.MsgDeleteAccount";
     str "tmos.x.authn.v1alpha1.Account";
     str "tmos.x.authn.v1alpha1.CurrentAccountNumber";
     str "tmos.x.authn.v1alpha1.Params"].
Definition file_18_messages : list message :=
  [declared file_18 (str "tmos.x.authn.v1alpha1.MsgCreateAccount") (str "MsgCreateAccount")
     [one_of (str "account") (str "tmos.x.authn.v1alpha1.Account")];
   declared file_18 (str "tmos.x.authn.v1alpha1.MsgUpdateAccount") (str "MsgUpdateAccount")
     [one_of (str "account") (str "tmos.x.authn.v1alpha1.Account")];
   declared file_18 (str "tmos.x.authn.v1alpha1.MsgDeleteAccount") (str "MsgDeleteAccount")
     [one_of (str "account") (str "tmos.x.authn.v1alpha1.Account")];
   declared file_18 (str "tmos.x.authn.v1alpha1.Account") (str "Account")
     [one (str "address") StringKind;
      one_of (str "pubKey") (str "google.protobuf.Any");
      one (str "accountNumber") Uint64Kind;
      one (str "sequence") Uint64Kind];
   declared file_18 (str "tmos.x.authn.v1alpha1.CurrentAccountNumber") (str "CurrentAccountNumber")
     [one (str "number") Uint64Kind];
   declared file_18 (str "tmos.x.authn.v1alpha1.Params") (str "Params")
     [one (str "maxMemoCharacters") Uint64Kind;
      one (str "txSigLimit") Uint64Kind;
      one (str "txSizeCostPerByte") Uint64Kind;
      one (str "sigVerifyCostEd25519") Uint64Kind;
      one (str "sigVerifyCostSecp256k1") Uint64Kind]].

(** core/coin/v1alpha1/coin.proto:1-17. *)
Definition file_19 : filedesc :=
  file (str "core/coin/v1alpha1/coin.proto") (str "tmos.core.coin.v1alpha1")
    []
    [str "tmos.core.coin.v1alpha1.Coin"; str "tmos.core.coin.v1alpha1.DecCoin"].
Definition file_19_messages : list message :=
  [declared file_19 (str "tmos.core.coin.v1alpha1.Coin") (str "Coin")
     [one (str "denom") StringKind; one (str "amount") StringKind];
   declared file_19 (str "tmos.core.coin.v1alpha1.DecCoin") (str "DecCoin")
     [one (str "denom") StringKind; one (str "amount") StringKind]].

(** x/bank/v1alpha1/bank.proto:1-104. *)
Definition file_20 : filedesc :=
  file (str "x/bank/v1alpha1/bank.proto") (str "tmos.x.bank.v1alpha1")
    [str "core/coin/v1alpha1/coin.proto";
     str "core/modulegen/modulegen.proto";
     str "core/rbac/xt/rbac_extension.proto"]
    [str "tmos.x.bank.v1alpha1.MsgSendCoins";
     str "tmos.x.bank.v1alpha1.MsgSetBalance";
     str "tmos.x.bank.v1alpha1.Balance";
     str "tmos.x.bank.v1alpha1.GenesisState";
     str "tmos.x.bank.v1alpha1.Params";
     str "tmos.x.bank.v1alpha1.SendEnabled";
     str "tmos.x.bank.v1alpha1.Metadata";
     str "tmos.x.bank.v1alpha1.DenomUnit"].
Definition file_20_messages : list message :=
  [declared file_20 (str "tmos.x.bank.v1alpha1.MsgSendCoins") (str "MsgSendCoins")
     [one (str "fromAddress") StringKind;
      one (str "toAddress") StringKind;
      many_of (str "amount") (str "tmos.core.coin.v1alpha1.Coin")];
   declared file_20 (str "tmos.x.bank.v1alpha1.MsgSetBalance") (str "MsgSetBalance")
     [one (str "address") StringKind; many_of (str "amount") (str "tmos.core.coin.v1alpha1.Coin")];
   declared file_20 (str "tmos.x.bank.v1alpha1.Balance") (str "Balance")
     [one (str "address") StringKind;
      many_of (str "balance") (str "tmos.core.coin.v1alpha1.Coin")];
   declared file_20 (str "tmos.x.bank.v1alpha1.GenesisState") (str "GenesisState")
     [one_of (str "params") (str "tmos.x.bank.v1alpha1.Params");
      many_of (str "balances") (str "tmos.x.bank.v1alpha1.Balance");
      many_of (str "balance") (str "tmos.core.coin.v1alpha1.Coin");
      many_of (str "denomMetadata") (str "tmos.x.bank.v1alpha1.Metadata")];
   declared file_20 (str "tmos.x.bank.v1alpha1.Params") (str "Params")
     [many_of (str "sendEnabled") (str "tmos.x.bank.v1alpha1.SendEnabled");
      one (str "defaultSendEnabled") BoolKind];
   declared file_20 (str "tmos.x.bank.v1alpha1.SendEnabled") (str "SendEnabled")
     [one (str "denom") StringKind; one (str "enabled") BoolKind];
   declared file_20 (str "tmos.x.bank.v1alpha1.Metadata") (str "Metadata")
     [one (str "description") StringKind;
      many_of (str "denomUnits") (str "tmos.x.bank.v1alpha1.DenomUnit");
      one (str "base") StringKind;
      one (str "display") StringKind;
      one (str "name") StringKind;
      one (str "symbol") StringKind];
   declared file_20 (str "tmos.x.bank.v1alpha1.DenomUnit") (str "DenomUnit")
     [one (str "denom") StringKind;
      one (str "exponent") Uint32Kind;
      many (str "aliases") StringKind]].

Definition proto_files : list filedesc :=
  [file_0; file_1; file_2; file_3; file_4; file_5; file_6; file_7; file_8; file_9; file_10; file_11; file_12; file_13; file_14; file_15; file_16; file_17; file_18; file_19; file_20].
Definition proto_messages : list message :=
  file_0_messages ++ file_1_messages ++ file_2_messages ++ file_3_messages ++ file_4_messages ++ file_5_messages ++ file_6_messages ++ file_7_messages ++ file_8_messages ++ file_9_messages ++ file_10_messages ++ file_11_messages ++ file_12_messages ++ file_13_messages ++ file_14_messages ++ file_15_messages ++ file_16_messages ++ file_17_messages ++ file_18_messages ++ file_19_messages ++ file_20_messages.

(** A name without a message, for which descriptors never ask. *)
Definition no_file : filedesc := file [] [] [] [].
Definition no_message : message := declared no_file [] [] [].
(** Resolution of names: the messages of the files and the messages made for lists
    (of which each refers to its own message only). *)
Definition proto_world : world :=
  {| wo_message n :=
       default no_message
         (List.find (fun m => bytes_eqb (me_name m) n)
            (proto_messages ++ map list_message proto_messages));
     wo_file p := default no_file (List.find (fun f => bytes_eqb (fl_path f) p) proto_files) |}.
