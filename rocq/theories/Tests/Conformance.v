(** Tests, not proofs: the examples of /repo/tests run through the model and
    compared with the recorded result files (dict order ignored, as in Python's
    ==).  They guard the transcription; no theorem depends on this file. *)
From Coq Require Import List NArith ZArith Bool String.
From Verif Require Import Py.Str Py.Val Pycep.Main Pycep.Bicep Lark.Terminals.
Import ListNotations.
Local Open Scope string_scope.

Definition D (l : list (string * pyval)) : pyval := PDict (map (fun p => (u (fst p), snd p)) l).
Definition Sv (s : string) : pyval := PStr (u s).
Definition LF : string := String (Ascii.ascii_of_nat 10) "".

Definition text_of (v : pyval) : option str :=
  match v with PStr s | PElem s => Some s | PTok t => Some (tval t) | _ => None end.
(** Python's == on the values that occur. *)
Fixpoint pv_eqb (fuel : nat) (a b : pyval) : bool :=
  match fuel with
  | O => false
  | Datatypes.S f =>
      match text_of a, text_of b with
      | Some x, Some y => str_eqb x y
      | Some _, None | None, Some _ => false
      | None, None =>
          match a, b with
          | PNone, PNone => true
          | PBool x, PBool y => Bool.eqb x y
          | PInt x, PInt y => Z.eqb x y
          | PList x, PList y | PTup x, PTup y =>
              (fix go x y := match x, y with
                             | [], [] => true
                             | v :: x', w :: y' => pv_eqb f v w && go x' y'
                             | _, _ => false end) x y
          | PDict x, PDict y =>
              Nat.eqb (List.length x) (List.length y) &&
              forallb (fun kv => match aget (fst kv) y with
                                 | Some w => pv_eqb f (snd kv) w
                                 | None => false end) x
          | _, _ => false
          end
      end
  end.
Definition no_files (p : path) : result str := Err (EOSError []).
Definition agrees (ln : bool) (text : string) (expected : pyval) : bool :=
  match bicep_parse env0 no_files ln (Some (u text)) None with
  | Ok v => pv_eqb 100 v expected
  | Err _ => false
  end.

(** tests/examples/basic/01-param-array-type/main.bicep *)
Example ex_basic_01_param_array_type : agrees false
"// simple array type
param simpleArray string[]

// nested array type
param nestedArray string[][]

// union array type
param unionArray (int | string)[]
"
  (D [("globals", D [("scope", D [("value", Sv "resourceGroup")])]); ("parameters", D [("simpleArray", D [("decorators", PList []); ("type", D [("type", Sv "array"); ("item_type", Sv "string")]); ("default", PNone)]); ("nestedArray", D [("decorators", PList []); ("type", D [("type", Sv "array"); ("item_type", D [("type", Sv "array"); ("item_type", Sv "string")])]); ("default", PNone)]); ("unionArray", D [("decorators", PList []); ("type", D [("type", Sv "array"); ("item_type", D [("type", Sv "union"); ("members", PList [Sv "int"; Sv "string"])])]); ("default", PNone)])])]) = true.
Proof. vm_compute. reflexivity. Qed.

(** tests/examples/basic/01-param/main.bicep *)
Example ex_basic_01_param : agrees false
"// basic declaration
param demoString string
param demoInt int

// default
param demoParam string = 'Contoso'
param demoBool bool = false

// array
param demoArray array = [
  resourceGroup().name
  1
  true
  'example string'
  'comma', 'separated', 'elements'
]

// object
param demoObject object = {
  name: resourceGroup().name
  number: 1
  boolean: true
  string: 'example string'
  single: 'line', comma: 'separated strings'
}

// expression
param location string = resourceGroup().location

// interpolation
param siteName string = 'site-${uniqueString(resourceGroup().id)}'

// multi-line (no interpolation support yet)
param multilineOutput string = '''
this is multi-line
  string with formatting
  preserved.
'''
"
  (D [("globals", D [("scope", D [("value", Sv "resourceGroup")])]); ("parameters", D [("demoString", D [("decorators", PList []); ("type", Sv "string"); ("default", PNone)]); ("demoInt", D [("decorators", PList []); ("type", Sv "int"); ("default", PNone)]); ("demoParam", D [("decorators", PList []); ("type", Sv "string"); ("default", Sv "Contoso")]); ("demoBool", D [("decorators", PList []); ("type", Sv "bool"); ("default", PBool false)]); ("demoArray", D [("decorators", PList []); ("type", Sv "array"); ("default", PList [D [("operator", D [("type", Sv "property_accessor"); ("operands", D [("operand_1", D [("function", D [("type", Sv "resource_group"); ("parameters", D [("resource_group_name", PNone); ("subscription_id", PNone)])])]); ("operand_2", Sv "name")])])]; PInt (1); PBool true; Sv "example string"; Sv "comma"; Sv "separated"; Sv "elements"])]); ("demoObject", D [("decorators", PList []); ("type", Sv "object"); ("default", D [("name", D [("operator", D [("type", Sv "property_accessor"); ("operands", D [("operand_1", D [("function", D [("type", Sv "resource_group"); ("parameters", D [("resource_group_name", PNone); ("subscription_id", PNone)])])]); ("operand_2", Sv "name")])])]); ("number", PInt (1)); ("boolean", PBool true); ("string", Sv "example string"); ("single", Sv "line"); ("comma", Sv "separated strings")])]); ("location", D [("decorators", PList []); ("type", Sv "string"); ("default", D [("operator", D [("type", Sv "property_accessor"); ("operands", D [("operand_1", D [("function", D [("type", Sv "resource_group"); ("parameters", D [("resource_group_name", PNone); ("subscription_id", PNone)])])]); ("operand_2", Sv "location")])])])]); ("siteName", D [("decorators", PList []); ("type", Sv "string"); ("default", Sv "site-${uniqueString(resourceGroup().id)}")]); ("multilineOutput", D [("decorators", PList []); ("type", Sv "string"); ("default", Sv "this is multi-line
  string with formatting
  preserved.
")])])]) = true.
Proof. vm_compute. reflexivity. Qed.

(** tests/examples/basic/02-var/main.bicep *)
Example ex_basic_02_var : agrees false
"// basic types
var stringVar = 'example value'
var exampleBool = true
var exampleInt = 1

// arrays
var mixedArray = [
  resourceGroup().name
  1
  // some comment
  true
  'example string'
  'comma', 'separated', 'elements'
]
var oneLineMixedArray = [ resourceGroup().name, 1, true, 'example string' ]

// objects
var mixedObject = {
  name: resourceGroup().name
  integer: 1
  // some comment
  boolean: true
  example: 'string'
}
var oneLineMixedObject = { name: resourceGroup().name, integer: 1, boolean: true, example: 'string'}

// interpolation
var storageName = '${toLower(storageNamePrefix)}${uniqueString(resourceGroup().id)}'

// multi-line (no interpolation support yet)
var stringVar = '''
this is multi-line
  string with formatting
  preserved.
'''
"
  (D [("globals", D [("scope", D [("value", Sv "resourceGroup")])]); ("variables", D [("stringVar", D [("decorators", PList []); ("value", Sv "this is multi-line
  string with formatting
  preserved.
")]); ("exampleBool", D [("decorators", PList []); ("value", PBool true)]); ("exampleInt", D [("decorators", PList []); ("value", PInt (1))]); ("mixedArray", D [("decorators", PList []); ("value", PList [D [("operator", D [("type", Sv "property_accessor"); ("operands", D [("operand_1", D [("function", D [("type", Sv "resource_group"); ("parameters", D [("resource_group_name", PNone); ("subscription_id", PNone)])])]); ("operand_2", Sv "name")])])]; PInt (1); PBool true; Sv "example string"; Sv "comma"; Sv "separated"; Sv "elements"])]); ("oneLineMixedArray", D [("decorators", PList []); ("value", PList [D [("operator", D [("type", Sv "property_accessor"); ("operands", D [("operand_1", D [("function", D [("type", Sv "resource_group"); ("parameters", D [("resource_group_name", PNone); ("subscription_id", PNone)])])]); ("operand_2", Sv "name")])])]; PInt (1); PBool true; Sv "example string"])]); ("mixedObject", D [("decorators", PList []); ("value", D [("name", D [("operator", D [("type", Sv "property_accessor"); ("operands", D [("operand_1", D [("function", D [("type", Sv "resource_group"); ("parameters", D [("resource_group_name", PNone); ("subscription_id", PNone)])])]); ("operand_2", Sv "name")])])]); ("integer", PInt (1)); ("boolean", PBool true); ("example", Sv "string")])]); ("oneLineMixedObject", D [("decorators", PList []); ("value", D [("name", D [("operator", D [("type", Sv "property_accessor"); ("operands", D [("operand_1", D [("function", D [("type", Sv "resource_group"); ("parameters", D [("resource_group_name", PNone); ("subscription_id", PNone)])])]); ("operand_2", Sv "name")])])]); ("integer", PInt (1)); ("boolean", PBool true); ("example", Sv "string")])]); ("storageName", D [("decorators", PList []); ("value", Sv "${toLower(storageNamePrefix)}${uniqueString(resourceGroup().id)}")])])]) = true.
Proof. vm_compute. reflexivity. Qed.

(** tests/examples/basic/03-output/main.bicep *)
Example ex_basic_03_output : agrees false
"// basic types
output stringOutput int = 42
output booleanOutput bool = false

// interpolation
output storageName string = '${toLower(storageNamePrefix)}${uniqueString(resourceGroup().id)}'

// expression
output location string = resourceGroup().location

// multi-line (no interpolation support yet)
output multilineOutput string = '''
this is multi-line
  string with formatting
  preserved.
'''
"
  (D [("globals", D [("scope", D [("value", Sv "resourceGroup")])]); ("outputs", D [("stringOutput", D [("decorators", PList []); ("type", Sv "int"); ("value", PInt (42))]); ("booleanOutput", D [("decorators", PList []); ("type", Sv "bool"); ("value", PBool false)]); ("storageName", D [("decorators", PList []); ("type", Sv "string"); ("value", Sv "${toLower(storageNamePrefix)}${uniqueString(resourceGroup().id)}")]); ("location", D [("decorators", PList []); ("type", Sv "string"); ("value", D [("operator", D [("type", Sv "property_accessor"); ("operands", D [("operand_1", D [("function", D [("type", Sv "resource_group"); ("parameters", D [("resource_group_name", PNone); ("subscription_id", PNone)])])]); ("operand_2", Sv "location")])])])]); ("multilineOutput", D [("decorators", PList []); ("type", Sv "string"); ("value", Sv "this is multi-line
  string with formatting
  preserved.
")])])]) = true.
Proof. vm_compute. reflexivity. Qed.

(** tests/examples/basic/04-resource/main.bicep *)
Example ex_basic_04_resource : agrees false
"// basic
resource storageAccount 'Microsoft.Storage/storageAccounts@2019-06-01' = {
  name: '${toLower(storageNamePrefix)}${uniqueString(resourceGroup().id)}'
  location: resourceGroup().location
  sku: {
    name: storageAccountType
  }
  kind: 'StorageV2'
  properties: {
    networkAcls: {
      bypass: 'string'
      defaultAction: 'string'
      ipRules: [
        {
          action: 'Allow'
          value: 'string'
        }
      ]
      resourceAccessRules: [
        {
          resourceId: 'string'
          tenantId: 'string'
        }
      ]
      virtualNetworkRules: [
        {
          action: 'Allow'
          id: 'string'
          state: 'string'
        }
      ]
    }
  }
}

resource function 'Microsoft.Web/sites/functions@2020-06-01' = {
  name: '${functionApp.name}/${functionNameComputed}'
  properties: {
    config: {
      disabled: false
      bindings: [
        {
          name: 'req'
          type: 'httpTrigger'
          direction: 'in'
          authLevel: 'function'
          methods: [
            'get'
          ]
        }
        {
          name: '$return'
          type: 'http'
          direction: 'out'
        }
      ]
    }
    files: {
      'run.csx': '''
#r ""Newtonsoft.Json""

using System.Net;
using Microsoft.AspNetCore.Mvc;
using Microsoft.Extensions.Primitives;
using Newtonsoft.Json;

public static async Task<IActionResult> Run(HttpRequest req, ILogger log)
{
      log.LogInformation(""C# HTTP trigger function processed a request."");

    string name = req.Query[""name""];

    string requestBody = await new StreamReader(req.Body).ReadToEndAsync();
    dynamic data = JsonConvert.DeserializeObject(requestBody);
    name = name ?? data?.name;

    string responseMessage = string.IsNullOrEmpty(name)
        ? ""This HTTP triggered function executed successfully. Pass a name in the query string or in the request body for a personalized response.""
                : $""Hello, {name}. This HTTP triggered function executed successfully."";

            return new OkObjectResult(responseMessage);
}
'''
    }
  }
}
"
  (D [("globals", D [("scope", D [("value", Sv "resourceGroup")])]); ("resources", D [("storageAccount", D [("decorators", PList []); ("type", Sv "Microsoft.Storage/storageAccounts"); ("api_version", Sv "2019-06-01"); ("existing", PBool false); ("config", D [("name", Sv "${toLower(storageNamePrefix)}${uniqueString(resourceGroup().id)}"); ("location", D [("operator", D [("type", Sv "property_accessor"); ("operands", D [("operand_1", D [("function", D [("type", Sv "resource_group"); ("parameters", D [("resource_group_name", PNone); ("subscription_id", PNone)])])]); ("operand_2", Sv "location")])])]); ("sku", D [("name", Sv "storageAccountType")]); ("kind", Sv "StorageV2"); ("properties", D [("networkAcls", D [("bypass", Sv "string"); ("defaultAction", Sv "string"); ("ipRules", PList [D [("action", Sv "Allow"); ("value", Sv "string")]]); ("resourceAccessRules", PList [D [("resourceId", Sv "string"); ("tenantId", Sv "string")]]); ("virtualNetworkRules", PList [D [("action", Sv "Allow"); ("id", Sv "string"); ("state", Sv "string")]])])])])]); ("function", D [("decorators", PList []); ("type", Sv "Microsoft.Web/sites/functions"); ("api_version", Sv "2020-06-01"); ("existing", PBool false); ("config", D [("name", Sv "${functionApp.name}/${functionNameComputed}"); ("properties", D [("config", D [("disabled", PBool false); ("bindings", PList [D [("name", Sv "req"); ("type", Sv "httpTrigger"); ("direction", Sv "in"); ("authLevel", Sv "function"); ("methods", PList [Sv "get"])]; D [("name", Sv "$return"); ("type", Sv "http"); ("direction", Sv "out")]])]); ("files", D [("'run.csx'", Sv "#r ""Newtonsoft.Json""

using System.Net;
using Microsoft.AspNetCore.Mvc;
using Microsoft.Extensions.Primitives;
using Newtonsoft.Json;

public static async Task<IActionResult> Run(HttpRequest req, ILogger log)
{
      log.LogInformation(""C# HTTP trigger function processed a request."");

    string name = req.Query[""name""];

    string requestBody = await new StreamReader(req.Body).ReadToEndAsync();
    dynamic data = JsonConvert.DeserializeObject(requestBody);
    name = name ?? data?.name;

    string responseMessage = string.IsNullOrEmpty(name)
        ? ""This HTTP triggered function executed successfully. Pass a name in the query string or in the request body for a personalized response.""
                : $""Hello, {name}. This HTTP triggered function executed successfully."";

            return new OkObjectResult(responseMessage);
}
")])])])])])]) = true.
Proof. vm_compute. reflexivity. Qed.

(** tests/examples/basic/05-module/main.bicep *)
Example ex_basic_05_module : agrees false
"// local ref
module localModule '../storageAccount.bicep' = {
  name: 'storageDeploy'
  params: {
    storagePrefix: 'examplestg1'
  }
}

// public registry ref
module publicRegistryModule 'br:mcr.microsoft.com/bicep/samples/hello-world:1.0.2' = {
  name: 'helloWorld'
  params: {
    name: 'John Dole'
  }
}

// private registry ref
module privateRegistryModule 'br:exampleregistry.azurecr.io/bicep/modules/storage:v1' = {
  name: 'storageDeploy'
  params: {
    storagePrefix: 'examplestg1'
  }
}

module privateDotRegistryModule 'br:sampleregistry.azurecr.io/bicep/modules/company.department/sampleSolution:1.0.0' = {
  name: 'sampleSolution-deploy'
  params: {
    parSampleParameter: 'Sample'
  }
}

// template spec ref
module templateModule 'ts:11111111-1111-1111-1111-111111111111/templateSpecsRG/storageSpec:2.0' = {
  name: 'storageDeploy'
  params: {
    storagePrefix: 'examplestg1'
  }
}
"
  (D [("globals", D [("scope", D [("value", Sv "resourceGroup")])]); ("modules", D [("localModule", D [("decorators", PList []); ("type", Sv "local"); ("detail", D [("full", Sv "../storageAccount.bicep"); ("path", Sv "../storageAccount.bicep")]); ("config", D [("name", Sv "storageDeploy"); ("params", D [("storagePrefix", Sv "examplestg1")])])]); ("publicRegistryModule", D [("decorators", PList []); ("type", Sv "bicep_registry"); ("detail", D [("full", Sv "mcr.microsoft.com/bicep/samples/hello-world:1.0.2"); ("registry_name", Sv "mcr.microsoft.com"); ("path", Sv "bicep/samples/hello-world"); ("tag", Sv "1.0.2"); ("public", PBool true)]); ("config", D [("name", Sv "helloWorld"); ("params", D [("name", Sv "John Dole")])])]); ("privateRegistryModule", D [("decorators", PList []); ("type", Sv "bicep_registry"); ("detail", D [("full", Sv "exampleregistry.azurecr.io/bicep/modules/storage:v1"); ("registry_name", Sv "exampleregistry"); ("path", Sv "bicep/modules/storage"); ("tag", Sv "v1"); ("public", PBool false)]); ("config", D [("name", Sv "storageDeploy"); ("params", D [("storagePrefix", Sv "examplestg1")])])]); ("privateDotRegistryModule", D [("decorators", PList []); ("type", Sv "bicep_registry"); ("detail", D [("full", Sv "sampleregistry.azurecr.io/bicep/modules/company.department/sampleSolution:1.0.0"); ("registry_name", Sv "sampleregistry"); ("path", Sv "bicep/modules/company.department/sampleSolution"); ("tag", Sv "1.0.0"); ("public", PBool false)]); ("config", D [("name", Sv "sampleSolution-deploy"); ("params", D [("parSampleParameter", Sv "Sample")])])]); ("templateModule", D [("decorators", PList []); ("type", Sv "template_spec"); ("detail", D [("full", Sv "11111111-1111-1111-1111-111111111111/templateSpecsRG/storageSpec:2.0"); ("subscription_id", Sv "11111111-1111-1111-1111-111111111111"); ("resource_group_id", Sv "templateSpecsRG"); ("name", Sv "storageSpec"); ("version", Sv "2.0")]); ("config", D [("name", Sv "storageDeploy"); ("params", D [("storagePrefix", Sv "examplestg1")])])])])]) = true.
Proof. vm_compute. reflexivity. Qed.

(** tests/examples/basic/06-type/main.bicep *)
Example ex_basic_06_type : agrees false
"// https://learn.microsoft.com/en-us/azure/azure-resource-manager/bicep/user-defined-data-types

// symbolic reference
type myStringType = string
type myOtherStringType = myStringType

// primitive literals
type myStringLiteralType = 'bicep' | 'arm' | 'azure'
type myIntLiteralType = 10
type myBoolLiteralType = true

// arrays not supported yet
//type myStrStringsType1 = string[]
//type myStrStringsType2 = ('a' | 'b' | 'c')[]
//type myIntArrayOfArraysType = int[][]
//type myMixedTypeArrayType = ('fizz' | 42 | {an: 'object'} | null)[]

// objects
type storageAccountConfigType = {
  name: string
  sku: string?
}

// decorators inside object not supported yet
// union type inside object not supported yet

type invalidRecursiveObjectType = {
  level1: {
    level2: {
      level3: {
        level4: {
          level5: invalidRecursiveObjectType
        }
      }
    }
  }
}

// unary operators
type negativeIntLiteral = -10
type negatedIntReference = -negativeIntLiteral

type negatedBoolLiteral = !true
type negatedBoolReference = !negatedBoolLiteral

// union types
type oneOfSeveralObjects = {foo: 'bar'} | {fizz: 'buzz'} | {snap: 'crackle'}
"
  (D [("globals", D [("scope", D [("value", Sv "resourceGroup")])]); ("types", D [("myStringType", D [("decorators", PList []); ("value", Sv "string")]); ("myOtherStringType", D [("decorators", PList []); ("value", Sv "myStringType")]); ("myStringLiteralType", D [("decorators", PList []); ("value", Sv "bicep | arm | azure")]); ("myIntLiteralType", D [("decorators", PList []); ("value", PInt (10))]); ("myBoolLiteralType", D [("decorators", PList []); ("value", PBool true)]); ("storageAccountConfigType", D [("decorators", PList []); ("value", D [("name", Sv "string"); ("sku", Sv "string")])]); ("invalidRecursiveObjectType", D [("decorators", PList []); ("value", D [("level1", D [("level2", D [("level3", D [("level4", D [("level5", Sv "invalidRecursiveObjectType")])])])])])]); ("negativeIntLiteral", D [("decorators", PList []); ("value", D [("operator", D [("type", Sv "minus"); ("operands", D [("integer_value", PInt (10))])])])]); ("negatedIntReference", D [("decorators", PList []); ("value", D [("operator", D [("type", Sv "minus"); ("operands", D [("integer_value", Sv "negativeIntLiteral")])])])]); ("negatedBoolLiteral", D [("decorators", PList []); ("value", D [("operator", D [("type", Sv "not"); ("operands", D [("bool_value", PBool true)])])])]); ("negatedBoolReference", D [("decorators", PList []); ("value", D [("operator", D [("type", Sv "not"); ("operands", D [("bool_value", Sv "negatedBoolLiteral")])])])]); ("oneOfSeveralObjects", D [("decorators", PList []); ("value", Sv "{'foo': 'bar'} | {'fizz': 'buzz'} | {'snap': 'crackle'}")])])]) = true.
Proof. vm_compute. reflexivity. Qed.

(** tests/examples/basic/07-func/main.bicep *)
Example ex_basic_07_func : agrees false
"// https://docs.azure.cn/en-us/azure-resource-manager/bicep/user-defined-functions

// definition
func buildUrl(https bool, hostname string, path string) string => '${https ? 'https' : 'http'}://${hostname}${empty(path) ? '' : '/${path}'}'

func sayHelloString(name string) string => 'Hi ${name}!'

func sayHelloObject(name string) object => {
  hello: 'Hi ${name}!'
}

func nameArray(name string) array => [
  name
]

func addNameArray(name string) array => [
  'Mary'
  'Bob'
  name
]

// usage
output azureUrl string = buildUrl(true, 'microsoft.com', 'azure')
output greetingArray array = map(['Evie', 'Casper'], name => sayHelloString(name))
output greetingObject object = sayHelloObject('John')
output nameArray array = nameArray('John')
output addNameArray array = addNameArray('John')
"
  (D [("globals", D [("scope", D [("value", Sv "resourceGroup")])]); ("functions", D [("buildUrl", D [("decorators", PList []); ("args", D [("https", Sv "bool"); ("hostname", Sv "string"); ("path", Sv "string")]); ("type", Sv "string"); ("expression", Sv "${https ? 'https' : 'http'}://${hostname}${empty(path) ? '' : '/${path}'}")]); ("sayHelloString", D [("decorators", PList []); ("args", D [("name", Sv "string")]); ("type", Sv "string"); ("expression", Sv "Hi ${name}!")]); ("sayHelloObject", D [("decorators", PList []); ("args", D [("name", Sv "string")]); ("type", Sv "object"); ("expression", D [("hello", Sv "Hi ${name}!")])]); ("nameArray", D [("decorators", PList []); ("args", D [("name", Sv "string")]); ("type", Sv "array"); ("expression", PList [Sv "name"])]); ("addNameArray", D [("decorators", PList []); ("args", D [("name", Sv "string")]); ("type", Sv "array"); ("expression", PList [Sv "Mary"; Sv "Bob"; Sv "name"])])]); ("outputs", D [("azureUrl", D [("decorators", PList []); ("type", Sv "string"); ("value", D [("function", D [("type", Sv "buildUrl"); ("parameters", D [("arg_1", PBool true); ("arg_2", Sv "microsoft.com"); ("arg_3", Sv "azure")])])])]); ("greetingArray", D [("decorators", PList []); ("type", Sv "array"); ("value", D [("function", D [("type", Sv "map"); ("parameters", D [("arg_1", PList [Sv "Evie"; Sv "Casper"]); ("arg_2", D [("type", Sv "lambda_expression"); ("detail", D [("var_1", Sv "name"); ("expression", D [("function", D [("type", Sv "sayHelloString"); ("parameters", D [("arg_1", Sv "name")])])])])])])])])]); ("greetingObject", D [("decorators", PList []); ("type", Sv "object"); ("value", D [("function", D [("type", Sv "sayHelloObject"); ("parameters", D [("arg_1", Sv "John")])])])]); ("nameArray", D [("decorators", PList []); ("type", Sv "array"); ("value", D [("function", D [("type", Sv "nameArray"); ("parameters", D [("arg_1", Sv "John")])])])]); ("addNameArray", D [("decorators", PList []); ("type", Sv "array"); ("value", D [("function", D [("type", Sv "addNameArray"); ("parameters", D [("arg_1", Sv "John")])])])])])]) = true.
Proof. vm_compute. reflexivity. Qed.

(** tests/examples/complete/playground/main.bicep *)
Example ex_complete_playground : agrees false
"metadata description = 'Official playground example https://aka.ms/bicepdemo'

targetScope = 'resourceGroup'

extension microsoftGraphV1

@description('Virtual machine size (has to be at least the size of Standard_A3 to support 2 NICs)')
param virtualMachineSize string = 'Standard_DS1_v2'

@description('Default Admin username')
param adminUsername string

@description('Default Admin password')
@secure()
param adminPassword string

@description('Storage Account type for the VM and VM diagnostic storage')
@allowed([
  'Standard_LRS'
  'Premium_LRS'
])
param storageAccountType string = 'Standard_LRS'

@description('Location for all resources.')
param location string = resourceGroup().location

var virtualMachineName = 'VM-MultiNic'
var nic1Name = 'nic-1'
var nic2Name = 'nic-2'
var virtualNetworkName = 'virtualNetwork'
var subnet1Name = 'subnet-1'
var subnet2Name = 'subnet-2'
var publicIPAddressName = 'publicIp'
var diagStorageAccountName = 'diags${uniqueString(resourceGroup().id)}'
var networkSecurityGroupName = 'NSG'
var networkSecurityGroupName2 = '${subnet2Name}-nsg'

// This is the virtual machine that you're building.
resource vm 'Microsoft.Compute/virtualMachines@2020-06-01' = {
  name: virtualMachineName
  location: location
  properties: {
    osProfile: {
      computerName: virtualMachineName
      adminUsername: adminUsername
      adminPassword: adminPassword
      windowsConfiguration: {
        provisionVMAgent: true
      }
    }
    hardwareProfile: {
      vmSize: virtualMachineSize
    }
    storageProfile: {
      imageReference: {
        publisher: 'MicrosoftWindowsServer'
        offer: 'WindowsServer'
        sku: '2019-Datacenter'
        version: 'latest'
      }
      osDisk: {
        createOption: 'FromImage'
      }
    }
    networkProfile: {
      networkInterfaces: [
        {
          properties: {
            primary: true
          }
          id: nic1.id
        }
        {
          properties: {
            primary: false
          }
          id: nic2.id
        }
      ]
    }
    diagnosticsProfile: {
      bootDiagnostics: {
        enabled: true
        storageUri: diagsAccount.properties.primaryEndpoints.blob
      }
    }
  }
}

resource storage 'Microsoft.Storage/storageAccounts@2021-02-01' = {
  name: diagStorageAccountName
  location: location
  kind: 'StorageV2'
  sku: {
    name: storageAccountType
  }

  resource service 'fileServices' = {
    name: 'default'

    resource share 'shares' = {
      name: 'diagShare'
    }
  }
}

// Simple Network Security Group for subnet2
resource nsg2 'Microsoft.Network/networkSecurityGroups@2020-06-01' = {
  name: networkSecurityGroupName2
  location: location
}

// This will build a Virtual Network.
resource vnet 'Microsoft.Network/virtualNetworks@2020-06-01' = {
  name: virtualNetworkName
  location: location
  properties: {
    addressSpace: {
      addressPrefixes: [
        '10.0.0.0/16'
      ]
    }
    subnets: [
      {
        name: subnet1Name
        properties: {
          addressPrefix: '10.0.0.0/24'
        }
      }
      {
        name: subnet2Name
        properties: {
          addressPrefix: '10.0.1.0/24'
          networkSecurityGroup: {
            id: nsg2.id
          }
        }
      }
    ]
  }
}

// This will be your Primary NIC
resource nic1 'Microsoft.Network/networkInterfaces@2020-06-01' = {
  name: nic1Name
  location: location
  properties: {
    ipConfigurations: [
      {
        name: 'ipconfig1'
        properties: {
          subnet: {
            id: resourceId('Microsoft.Network/virtualNetworks/subnets', vnet.name, subnet1Name)
          }
          privateIPAllocationMethod: 'Dynamic'
          publicIPAddress: {
            id: pip.id
          }
        }
      }
    ]
    networkSecurityGroup: {
      id: nsg.id
    }
  }
}

// This will be your Secondary NIC
resource nic2 'Microsoft.Network/networkInterfaces@2020-06-01' = {
  name: nic2Name
  location: location
  properties: {
    ipConfigurations: [
      {
        name: 'ipconfig1'
        properties: {
          subnet: {
            id: resourceId('Microsoft.Network/virtualNetworks/subnets', vnet.name, subnet2Name)
          }
          privateIPAllocationMethod: 'Dynamic'
        }
      }
    ]
  }
}

// Public IP for your Primary NIC
resource pip 'Microsoft.Network/publicIPAddresses@2020-06-01' = {
  name: publicIPAddressName
  location: location
  properties: {
    publicIPAllocationMethod: 'Dynamic'
  }
}

// Network Security Group (NSG) for your Primary NIC
resource nsg 'Microsoft.Network/networkSecurityGroups@2020-06-01' = {
  name: networkSecurityGroupName
  location: location
  properties: {
    securityRules: [
      {
        name: 'default-allow-rdp'
        properties: {
          priority: 1000
          sourceAddressPrefix: '*'
          protocol: 'Tcp'
          destinationPortRange: '3389'
          access: 'Allow'
          direction: 'Inbound'
          sourcePortRange: '*'
          destinationAddressPrefix: '*'
        }
      }
    ]
  }
}

module network './network.bicep' = {
  name: 'network'
  params: {
    myIp: '123.123.123.123'
  }
}

resource appRegistration 'Microsoft.Graph/applications@v1.0' = {
  uniqueName: '${virtualMachineName}-app'
  displayName: '${virtualMachineName} Application'
  signInAudience: 'AzureADMyOrg'
}

output nsgId string = nsg.id
output appRegistrationId string = appRegistration.appId
"
  (D [("globals", D [("scope", D [("value", Sv "resourceGroup")])]); ("metadata", D [("description", D [("value", Sv "Official playground example https://aka.ms/bicepdemo")])]); ("extensions", D [("microsoftGraphV1", D [])]); ("parameters", D [("virtualMachineSize", D [("decorators", PList [D [("type", Sv "description"); ("argument", Sv "Virtual machine size (has to be at least the size of Standard_A3 to support 2 NICs)")]]); ("type", Sv "string"); ("default", Sv "Standard_DS1_v2")]); ("adminUsername", D [("decorators", PList [D [("type", Sv "description"); ("argument", Sv "Default Admin username")]]); ("type", Sv "string"); ("default", PNone)]); ("adminPassword", D [("decorators", PList [D [("type", Sv "description"); ("argument", Sv "Default Admin password")]; D [("type", Sv "secure")]]); ("type", Sv "string"); ("default", PNone)]); ("storageAccountType", D [("decorators", PList [D [("type", Sv "description"); ("argument", Sv "Storage Account type for the VM and VM diagnostic storage")]; D [("type", Sv "allowed"); ("argument", PList [Sv "Standard_LRS"; Sv "Premium_LRS"])]]); ("type", Sv "string"); ("default", Sv "Standard_LRS")]); ("location", D [("decorators", PList [D [("type", Sv "description"); ("argument", Sv "Location for all resources.")]]); ("type", Sv "string"); ("default", D [("operator", D [("type", Sv "property_accessor"); ("operands", D [("operand_1", D [("function", D [("type", Sv "resource_group"); ("parameters", D [("resource_group_name", PNone); ("subscription_id", PNone)])])]); ("operand_2", Sv "location")])])])])]); ("variables", D [("virtualMachineName", D [("decorators", PList []); ("value", Sv "VM-MultiNic")]); ("nic1Name", D [("decorators", PList []); ("value", Sv "nic-1")]); ("nic2Name", D [("decorators", PList []); ("value", Sv "nic-2")]); ("virtualNetworkName", D [("decorators", PList []); ("value", Sv "virtualNetwork")]); ("subnet1Name", D [("decorators", PList []); ("value", Sv "subnet-1")]); ("subnet2Name", D [("decorators", PList []); ("value", Sv "subnet-2")]); ("publicIPAddressName", D [("decorators", PList []); ("value", Sv "publicIp")]); ("diagStorageAccountName", D [("decorators", PList []); ("value", Sv "diags${uniqueString(resourceGroup().id)}")]); ("networkSecurityGroupName", D [("decorators", PList []); ("value", Sv "NSG")]); ("networkSecurityGroupName2", D [("decorators", PList []); ("value", Sv "${subnet2Name}-nsg")])]); ("resources", D [("vm", D [("decorators", PList []); ("type", Sv "Microsoft.Compute/virtualMachines"); ("api_version", Sv "2020-06-01"); ("existing", PBool false); ("config", D [("name", Sv "virtualMachineName"); ("location", Sv "location"); ("properties", D [("osProfile", D [("computerName", Sv "virtualMachineName"); ("adminUsername", Sv "adminUsername"); ("adminPassword", Sv "adminPassword"); ("windowsConfiguration", D [("provisionVMAgent", PBool true)])]); ("hardwareProfile", D [("vmSize", Sv "virtualMachineSize")]); ("storageProfile", D [("imageReference", D [("publisher", Sv "MicrosoftWindowsServer"); ("offer", Sv "WindowsServer"); ("sku", Sv "2019-Datacenter"); ("version", Sv "latest")]); ("osDisk", D [("createOption", Sv "FromImage")])]); ("networkProfile", D [("networkInterfaces", PList [D [("properties", D [("primary", PBool true)]); ("id", D [("operator", D [("type", Sv "property_accessor"); ("operands", D [("operand_1", Sv "nic1"); ("operand_2", Sv "id")])])])]; D [("properties", D [("primary", PBool false)]); ("id", D [("operator", D [("type", Sv "property_accessor"); ("operands", D [("operand_1", Sv "nic2"); ("operand_2", Sv "id")])])])]])]); ("diagnosticsProfile", D [("bootDiagnostics", D [("enabled", PBool true); ("storageUri", D [("operator", D [("type", Sv "property_accessor"); ("operands", D [("operand_1", Sv "diagsAccount"); ("operand_2", D [("operator", D [("type", Sv "property_accessor"); ("operands", D [("operand_1", Sv "properties"); ("operand_2", D [("operator", D [("type", Sv "property_accessor"); ("operands", D [("operand_1", Sv "primaryEndpoints"); ("operand_2", Sv "blob")])])])])])])])])])])])])])]); ("storage", D [("decorators", PList []); ("type", Sv "Microsoft.Storage/storageAccounts"); ("api_version", Sv "2021-02-01"); ("existing", PBool false); ("config", D [("name", Sv "diagStorageAccountName"); ("location", Sv "location"); ("kind", Sv "StorageV2"); ("sku", D [("name", Sv "storageAccountType")])])]); ("nsg2", D [("decorators", PList []); ("type", Sv "Microsoft.Network/networkSecurityGroups"); ("api_version", Sv "2020-06-01"); ("existing", PBool false); ("config", D [("name", Sv "networkSecurityGroupName2"); ("location", Sv "location")])]); ("vnet", D [("decorators", PList []); ("type", Sv "Microsoft.Network/virtualNetworks"); ("api_version", Sv "2020-06-01"); ("existing", PBool false); ("config", D [("name", Sv "virtualNetworkName"); ("location", Sv "location"); ("properties", D [("addressSpace", D [("addressPrefixes", PList [Sv "10.0.0.0/16"])]); ("subnets", PList [D [("name", Sv "subnet1Name"); ("properties", D [("addressPrefix", Sv "10.0.0.0/24")])]; D [("name", Sv "subnet2Name"); ("properties", D [("addressPrefix", Sv "10.0.1.0/24"); ("networkSecurityGroup", D [("id", D [("operator", D [("type", Sv "property_accessor"); ("operands", D [("operand_1", Sv "nsg2"); ("operand_2", Sv "id")])])])])])]])])])]); ("nic1", D [("decorators", PList []); ("type", Sv "Microsoft.Network/networkInterfaces"); ("api_version", Sv "2020-06-01"); ("existing", PBool false); ("config", D [("name", Sv "nic1Name"); ("location", Sv "location"); ("properties", D [("ipConfigurations", PList [D [("name", Sv "ipconfig1"); ("properties", D [("subnet", D [("id", D [("function", D [("type", Sv "resource_id"); ("parameters", D [("resource_type", Sv "Microsoft.Network/virtualNetworks/subnets"); ("resource_name_1", D [("operator", D [("type", Sv "property_accessor"); ("operands", D [("operand_1", Sv "vnet"); ("operand_2", Sv "name")])])]); ("resource_name_2", Sv "subnet1Name"); ("resource_group_name", PNone); ("subscription_id", PNone)])])])]); ("privateIPAllocationMethod", Sv "Dynamic"); ("publicIPAddress", D [("id", D [("operator", D [("type", Sv "property_accessor"); ("operands", D [("operand_1", Sv "pip"); ("operand_2", Sv "id")])])])])])]]); ("networkSecurityGroup", D [("id", D [("operator", D [("type", Sv "property_accessor"); ("operands", D [("operand_1", Sv "nsg"); ("operand_2", Sv "id")])])])])])])]); ("nic2", D [("decorators", PList []); ("type", Sv "Microsoft.Network/networkInterfaces"); ("api_version", Sv "2020-06-01"); ("existing", PBool false); ("config", D [("name", Sv "nic2Name"); ("location", Sv "location"); ("properties", D [("ipConfigurations", PList [D [("name", Sv "ipconfig1"); ("properties", D [("subnet", D [("id", D [("function", D [("type", Sv "resource_id"); ("parameters", D [("resource_type", Sv "Microsoft.Network/virtualNetworks/subnets"); ("resource_name_1", D [("operator", D [("type", Sv "property_accessor"); ("operands", D [("operand_1", Sv "vnet"); ("operand_2", Sv "name")])])]); ("resource_name_2", Sv "subnet2Name"); ("resource_group_name", PNone); ("subscription_id", PNone)])])])]); ("privateIPAllocationMethod", Sv "Dynamic")])]])])])]); ("pip", D [("decorators", PList []); ("type", Sv "Microsoft.Network/publicIPAddresses"); ("api_version", Sv "2020-06-01"); ("existing", PBool false); ("config", D [("name", Sv "publicIPAddressName"); ("location", Sv "location"); ("properties", D [("publicIPAllocationMethod", Sv "Dynamic")])])]); ("nsg", D [("decorators", PList []); ("type", Sv "Microsoft.Network/networkSecurityGroups"); ("api_version", Sv "2020-06-01"); ("existing", PBool false); ("config", D [("name", Sv "networkSecurityGroupName"); ("location", Sv "location"); ("properties", D [("securityRules", PList [D [("name", Sv "default-allow-rdp"); ("properties", D [("priority", PInt (1000)); ("sourceAddressPrefix", Sv "*"); ("protocol", Sv "Tcp"); ("destinationPortRange", Sv "3389"); ("access", Sv "Allow"); ("direction", Sv "Inbound"); ("sourcePortRange", Sv "*"); ("destinationAddressPrefix", Sv "*")])]])])])]); ("appRegistration", D [("decorators", PList []); ("type", Sv "Microsoft.Graph/applications"); ("api_version", Sv "v1.0"); ("existing", PBool false); ("config", D [("uniqueName", Sv "${virtualMachineName}-app"); ("displayName", Sv "${virtualMachineName} Application"); ("signInAudience", Sv "AzureADMyOrg")])]); ("storage__service", D [("decorators", PList []); ("type", Sv "Microsoft.Storage/storageAccounts/fileServices"); ("api_version", Sv "2021-02-01"); ("existing", PBool false); ("config", D [("name", Sv "default"); ("depends_on", PList [Sv "storage"])])]); ("storage__service__share", D [("decorators", PList []); ("type", Sv "Microsoft.Storage/storageAccounts/fileServices/shares"); ("api_version", Sv "2021-02-01"); ("existing", PBool false); ("config", D [("name", Sv "diagShare"); ("depends_on", PList [Sv "storage__service"])])])]); ("modules", D [("network", D [("decorators", PList []); ("type", Sv "local"); ("detail", D [("full", Sv "./network.bicep"); ("path", Sv "./network.bicep")]); ("config", D [("name", Sv "network"); ("params", D [("myIp", Sv "123.123.123.123")])])])]); ("outputs", D [("nsgId", D [("decorators", PList []); ("type", Sv "string"); ("value", D [("operator", D [("type", Sv "property_accessor"); ("operands", D [("operand_1", Sv "nsg"); ("operand_2", Sv "id")])])])]); ("appRegistrationId", D [("decorators", PList []); ("type", Sv "string"); ("value", D [("operator", D [("type", Sv "property_accessor"); ("operands", D [("operand_1", Sv "appRegistration"); ("operand_2", Sv "appId")])])])])])]) = true.
Proof. vm_compute. reflexivity. Qed.

(** tests/examples/complete/playground/main.bicep *)
Example ex_complete_playground_lines : agrees true
"metadata description = 'Official playground example https://aka.ms/bicepdemo'

targetScope = 'resourceGroup'

extension microsoftGraphV1

@description('Virtual machine size (has to be at least the size of Standard_A3 to support 2 NICs)')
param virtualMachineSize string = 'Standard_DS1_v2'

@description('Default Admin username')
param adminUsername string

@description('Default Admin password')
@secure()
param adminPassword string

@description('Storage Account type for the VM and VM diagnostic storage')
@allowed([
  'Standard_LRS'
  'Premium_LRS'
])
param storageAccountType string = 'Standard_LRS'

@description('Location for all resources.')
param location string = resourceGroup().location

var virtualMachineName = 'VM-MultiNic'
var nic1Name = 'nic-1'
var nic2Name = 'nic-2'
var virtualNetworkName = 'virtualNetwork'
var subnet1Name = 'subnet-1'
var subnet2Name = 'subnet-2'
var publicIPAddressName = 'publicIp'
var diagStorageAccountName = 'diags${uniqueString(resourceGroup().id)}'
var networkSecurityGroupName = 'NSG'
var networkSecurityGroupName2 = '${subnet2Name}-nsg'

// This is the virtual machine that you're building.
resource vm 'Microsoft.Compute/virtualMachines@2020-06-01' = {
  name: virtualMachineName
  location: location
  properties: {
    osProfile: {
      computerName: virtualMachineName
      adminUsername: adminUsername
      adminPassword: adminPassword
      windowsConfiguration: {
        provisionVMAgent: true
      }
    }
    hardwareProfile: {
      vmSize: virtualMachineSize
    }
    storageProfile: {
      imageReference: {
        publisher: 'MicrosoftWindowsServer'
        offer: 'WindowsServer'
        sku: '2019-Datacenter'
        version: 'latest'
      }
      osDisk: {
        createOption: 'FromImage'
      }
    }
    networkProfile: {
      networkInterfaces: [
        {
          properties: {
            primary: true
          }
          id: nic1.id
        }
        {
          properties: {
            primary: false
          }
          id: nic2.id
        }
      ]
    }
    diagnosticsProfile: {
      bootDiagnostics: {
        enabled: true
        storageUri: diagsAccount.properties.primaryEndpoints.blob
      }
    }
  }
}

resource storage 'Microsoft.Storage/storageAccounts@2021-02-01' = {
  name: diagStorageAccountName
  location: location
  kind: 'StorageV2'
  sku: {
    name: storageAccountType
  }

  resource service 'fileServices' = {
    name: 'default'

    resource share 'shares' = {
      name: 'diagShare'
    }
  }
}

// Simple Network Security Group for subnet2
resource nsg2 'Microsoft.Network/networkSecurityGroups@2020-06-01' = {
  name: networkSecurityGroupName2
  location: location
}

// This will build a Virtual Network.
resource vnet 'Microsoft.Network/virtualNetworks@2020-06-01' = {
  name: virtualNetworkName
  location: location
  properties: {
    addressSpace: {
      addressPrefixes: [
        '10.0.0.0/16'
      ]
    }
    subnets: [
      {
        name: subnet1Name
        properties: {
          addressPrefix: '10.0.0.0/24'
        }
      }
      {
        name: subnet2Name
        properties: {
          addressPrefix: '10.0.1.0/24'
          networkSecurityGroup: {
            id: nsg2.id
          }
        }
      }
    ]
  }
}

// This will be your Primary NIC
resource nic1 'Microsoft.Network/networkInterfaces@2020-06-01' = {
  name: nic1Name
  location: location
  properties: {
    ipConfigurations: [
      {
        name: 'ipconfig1'
        properties: {
          subnet: {
            id: resourceId('Microsoft.Network/virtualNetworks/subnets', vnet.name, subnet1Name)
          }
          privateIPAllocationMethod: 'Dynamic'
          publicIPAddress: {
            id: pip.id
          }
        }
      }
    ]
    networkSecurityGroup: {
      id: nsg.id
    }
  }
}

// This will be your Secondary NIC
resource nic2 'Microsoft.Network/networkInterfaces@2020-06-01' = {
  name: nic2Name
  location: location
  properties: {
    ipConfigurations: [
      {
        name: 'ipconfig1'
        properties: {
          subnet: {
            id: resourceId('Microsoft.Network/virtualNetworks/subnets', vnet.name, subnet2Name)
          }
          privateIPAllocationMethod: 'Dynamic'
        }
      }
    ]
  }
}

// Public IP for your Primary NIC
resource pip 'Microsoft.Network/publicIPAddresses@2020-06-01' = {
  name: publicIPAddressName
  location: location
  properties: {
    publicIPAllocationMethod: 'Dynamic'
  }
}

// Network Security Group (NSG) for your Primary NIC
resource nsg 'Microsoft.Network/networkSecurityGroups@2020-06-01' = {
  name: networkSecurityGroupName
  location: location
  properties: {
    securityRules: [
      {
        name: 'default-allow-rdp'
        properties: {
          priority: 1000
          sourceAddressPrefix: '*'
          protocol: 'Tcp'
          destinationPortRange: '3389'
          access: 'Allow'
          direction: 'Inbound'
          sourcePortRange: '*'
          destinationAddressPrefix: '*'
        }
      }
    ]
  }
}

module network './network.bicep' = {
  name: 'network'
  params: {
    myIp: '123.123.123.123'
  }
}

resource appRegistration 'Microsoft.Graph/applications@v1.0' = {
  uniqueName: '${virtualMachineName}-app'
  displayName: '${virtualMachineName} Application'
  signInAudience: 'AzureADMyOrg'
}

output nsgId string = nsg.id
output appRegistrationId string = appRegistration.appId
"
  (D [("globals", D [("scope", D [("value", Sv "resourceGroup"); ("__start_line__", PInt (3)); ("__end_line__", PInt (3))])]); ("metadata", D [("description", D [("value", Sv "Official playground example https://aka.ms/bicepdemo"); ("__start_line__", PInt (1)); ("__end_line__", PInt (1))])]); ("extensions", D [("microsoftGraphV1", D [("__start_line__", PInt (5)); ("__end_line__", PInt (5))])]); ("parameters", D [("virtualMachineSize", D [("decorators", PList [D [("type", Sv "description"); ("argument", Sv "Virtual machine size (has to be at least the size of Standard_A3 to support 2 NICs)")]]); ("type", Sv "string"); ("default", Sv "Standard_DS1_v2"); ("__start_line__", PInt (7)); ("__end_line__", PInt (8))]); ("adminUsername", D [("decorators", PList [D [("type", Sv "description"); ("argument", Sv "Default Admin username")]]); ("type", Sv "string"); ("default", PNone); ("__start_line__", PInt (10)); ("__end_line__", PInt (11))]); ("adminPassword", D [("decorators", PList [D [("type", Sv "description"); ("argument", Sv "Default Admin password")]; D [("type", Sv "secure")]]); ("type", Sv "string"); ("default", PNone); ("__start_line__", PInt (13)); ("__end_line__", PInt (15))]); ("storageAccountType", D [("decorators", PList [D [("type", Sv "description"); ("argument", Sv "Storage Account type for the VM and VM diagnostic storage")]; D [("type", Sv "allowed"); ("argument", PList [Sv "Standard_LRS"; Sv "Premium_LRS"])]]); ("type", Sv "string"); ("default", Sv "Standard_LRS"); ("__start_line__", PInt (17)); ("__end_line__", PInt (22))]); ("location", D [("decorators", PList [D [("type", Sv "description"); ("argument", Sv "Location for all resources.")]]); ("type", Sv "string"); ("default", D [("operator", D [("type", Sv "property_accessor"); ("operands", D [("operand_1", D [("function", D [("type", Sv "resource_group"); ("parameters", D [("resource_group_name", PNone); ("subscription_id", PNone)])])]); ("operand_2", Sv "location")])])]); ("__start_line__", PInt (24)); ("__end_line__", PInt (25))])]); ("variables", D [("virtualMachineName", D [("decorators", PList []); ("value", Sv "VM-MultiNic"); ("__start_line__", PInt (27)); ("__end_line__", PInt (27))]); ("nic1Name", D [("decorators", PList []); ("value", Sv "nic-1"); ("__start_line__", PInt (28)); ("__end_line__", PInt (28))]); ("nic2Name", D [("decorators", PList []); ("value", Sv "nic-2"); ("__start_line__", PInt (29)); ("__end_line__", PInt (29))]); ("virtualNetworkName", D [("decorators", PList []); ("value", Sv "virtualNetwork"); ("__start_line__", PInt (30)); ("__end_line__", PInt (30))]); ("subnet1Name", D [("decorators", PList []); ("value", Sv "subnet-1"); ("__start_line__", PInt (31)); ("__end_line__", PInt (31))]); ("subnet2Name", D [("decorators", PList []); ("value", Sv "subnet-2"); ("__start_line__", PInt (32)); ("__end_line__", PInt (32))]); ("publicIPAddressName", D [("decorators", PList []); ("value", Sv "publicIp"); ("__start_line__", PInt (33)); ("__end_line__", PInt (33))]); ("diagStorageAccountName", D [("decorators", PList []); ("value", Sv "diags${uniqueString(resourceGroup().id)}"); ("__start_line__", PInt (34)); ("__end_line__", PInt (34))]); ("networkSecurityGroupName", D [("decorators", PList []); ("value", Sv "NSG"); ("__start_line__", PInt (35)); ("__end_line__", PInt (35))]); ("networkSecurityGroupName2", D [("decorators", PList []); ("value", Sv "${subnet2Name}-nsg"); ("__start_line__", PInt (36)); ("__end_line__", PInt (36))])]); ("resources", D [("vm", D [("decorators", PList []); ("type", Sv "Microsoft.Compute/virtualMachines"); ("api_version", Sv "2020-06-01"); ("existing", PBool false); ("config", D [("name", Sv "virtualMachineName"); ("location", Sv "location"); ("properties", D [("osProfile", D [("computerName", Sv "virtualMachineName"); ("adminUsername", Sv "adminUsername"); ("adminPassword", Sv "adminPassword"); ("windowsConfiguration", D [("provisionVMAgent", PBool true)])]); ("hardwareProfile", D [("vmSize", Sv "virtualMachineSize")]); ("storageProfile", D [("imageReference", D [("publisher", Sv "MicrosoftWindowsServer"); ("offer", Sv "WindowsServer"); ("sku", Sv "2019-Datacenter"); ("version", Sv "latest")]); ("osDisk", D [("createOption", Sv "FromImage")])]); ("networkProfile", D [("networkInterfaces", PList [D [("properties", D [("primary", PBool true)]); ("id", D [("operator", D [("type", Sv "property_accessor"); ("operands", D [("operand_1", Sv "nic1"); ("operand_2", Sv "id")])])])]; D [("properties", D [("primary", PBool false)]); ("id", D [("operator", D [("type", Sv "property_accessor"); ("operands", D [("operand_1", Sv "nic2"); ("operand_2", Sv "id")])])])]])]); ("diagnosticsProfile", D [("bootDiagnostics", D [("enabled", PBool true); ("storageUri", D [("operator", D [("type", Sv "property_accessor"); ("operands", D [("operand_1", Sv "diagsAccount"); ("operand_2", D [("operator", D [("type", Sv "property_accessor"); ("operands", D [("operand_1", Sv "properties"); ("operand_2", D [("operator", D [("type", Sv "property_accessor"); ("operands", D [("operand_1", Sv "primaryEndpoints"); ("operand_2", Sv "blob")])])])])])])])])])])])])]); ("__start_line__", PInt (39)); ("__end_line__", PInt (88))]); ("storage", D [("decorators", PList []); ("type", Sv "Microsoft.Storage/storageAccounts"); ("api_version", Sv "2021-02-01"); ("existing", PBool false); ("config", D [("name", Sv "diagStorageAccountName"); ("location", Sv "location"); ("kind", Sv "StorageV2"); ("sku", D [("name", Sv "storageAccountType")])]); ("__start_line__", PInt (90)); ("__end_line__", PInt (105))]); ("nsg2", D [("decorators", PList []); ("type", Sv "Microsoft.Network/networkSecurityGroups"); ("api_version", Sv "2020-06-01"); ("existing", PBool false); ("config", D [("name", Sv "networkSecurityGroupName2"); ("location", Sv "location")]); ("__start_line__", PInt (108)); ("__end_line__", PInt (111))]); ("vnet", D [("decorators", PList []); ("type", Sv "Microsoft.Network/virtualNetworks"); ("api_version", Sv "2020-06-01"); ("existing", PBool false); ("config", D [("name", Sv "virtualNetworkName"); ("location", Sv "location"); ("properties", D [("addressSpace", D [("addressPrefixes", PList [Sv "10.0.0.0/16"])]); ("subnets", PList [D [("name", Sv "subnet1Name"); ("properties", D [("addressPrefix", Sv "10.0.0.0/24")])]; D [("name", Sv "subnet2Name"); ("properties", D [("addressPrefix", Sv "10.0.1.0/24"); ("networkSecurityGroup", D [("id", D [("operator", D [("type", Sv "property_accessor"); ("operands", D [("operand_1", Sv "nsg2"); ("operand_2", Sv "id")])])])])])]])])]); ("__start_line__", PInt (114)); ("__end_line__", PInt (141))]); ("nic1", D [("decorators", PList []); ("type", Sv "Microsoft.Network/networkInterfaces"); ("api_version", Sv "2020-06-01"); ("existing", PBool false); ("config", D [("name", Sv "nic1Name"); ("location", Sv "location"); ("properties", D [("ipConfigurations", PList [D [("name", Sv "ipconfig1"); ("properties", D [("subnet", D [("id", D [("function", D [("type", Sv "resource_id"); ("parameters", D [("resource_type", Sv "Microsoft.Network/virtualNetworks/subnets"); ("resource_name_1", D [("operator", D [("type", Sv "property_accessor"); ("operands", D [("operand_1", Sv "vnet"); ("operand_2", Sv "name")])])]); ("resource_name_2", Sv "subnet1Name"); ("resource_group_name", PNone); ("subscription_id", PNone)])])])]); ("privateIPAllocationMethod", Sv "Dynamic"); ("publicIPAddress", D [("id", D [("operator", D [("type", Sv "property_accessor"); ("operands", D [("operand_1", Sv "pip"); ("operand_2", Sv "id")])])])])])]]); ("networkSecurityGroup", D [("id", D [("operator", D [("type", Sv "property_accessor"); ("operands", D [("operand_1", Sv "nsg"); ("operand_2", Sv "id")])])])])])]); ("__start_line__", PInt (144)); ("__end_line__", PInt (166))]); ("nic2", D [("decorators", PList []); ("type", Sv "Microsoft.Network/networkInterfaces"); ("api_version", Sv "2020-06-01"); ("existing", PBool false); ("config", D [("name", Sv "nic2Name"); ("location", Sv "location"); ("properties", D [("ipConfigurations", PList [D [("name", Sv "ipconfig1"); ("properties", D [("subnet", D [("id", D [("function", D [("type", Sv "resource_id"); ("parameters", D [("resource_type", Sv "Microsoft.Network/virtualNetworks/subnets"); ("resource_name_1", D [("operator", D [("type", Sv "property_accessor"); ("operands", D [("operand_1", Sv "vnet"); ("operand_2", Sv "name")])])]); ("resource_name_2", Sv "subnet2Name"); ("resource_group_name", PNone); ("subscription_id", PNone)])])])]); ("privateIPAllocationMethod", Sv "Dynamic")])]])])]); ("__start_line__", PInt (169)); ("__end_line__", PInt (185))]); ("pip", D [("decorators", PList []); ("type", Sv "Microsoft.Network/publicIPAddresses"); ("api_version", Sv "2020-06-01"); ("existing", PBool false); ("config", D [("name", Sv "publicIPAddressName"); ("location", Sv "location"); ("properties", D [("publicIPAllocationMethod", Sv "Dynamic")])]); ("__start_line__", PInt (188)); ("__end_line__", PInt (194))]); ("nsg", D [("decorators", PList []); ("type", Sv "Microsoft.Network/networkSecurityGroups"); ("api_version", Sv "2020-06-01"); ("existing", PBool false); ("config", D [("name", Sv "networkSecurityGroupName"); ("location", Sv "location"); ("properties", D [("securityRules", PList [D [("name", Sv "default-allow-rdp"); ("properties", D [("priority", PInt (1000)); ("sourceAddressPrefix", Sv "*"); ("protocol", Sv "Tcp"); ("destinationPortRange", Sv "3389"); ("access", Sv "Allow"); ("direction", Sv "Inbound"); ("sourcePortRange", Sv "*"); ("destinationAddressPrefix", Sv "*")])]])])]); ("__start_line__", PInt (197)); ("__end_line__", PInt (217))]); ("appRegistration", D [("decorators", PList []); ("type", Sv "Microsoft.Graph/applications"); ("api_version", Sv "v1.0"); ("existing", PBool false); ("config", D [("uniqueName", Sv "${virtualMachineName}-app"); ("displayName", Sv "${virtualMachineName} Application"); ("signInAudience", Sv "AzureADMyOrg")]); ("__start_line__", PInt (226)); ("__end_line__", PInt (230))]); ("storage__service", D [("decorators", PList []); ("type", Sv "Microsoft.Storage/storageAccounts/fileServices"); ("api_version", Sv "2021-02-01"); ("existing", PBool false); ("config", D [("name", Sv "default"); ("depends_on", PList [Sv "storage"])]); ("__start_line__", PInt (98)); ("__end_line__", PInt (104))]); ("storage__service__share", D [("decorators", PList []); ("type", Sv "Microsoft.Storage/storageAccounts/fileServices/shares"); ("api_version", Sv "2021-02-01"); ("existing", PBool false); ("config", D [("name", Sv "diagShare"); ("depends_on", PList [Sv "storage__service"])]); ("__start_line__", PInt (101)); ("__end_line__", PInt (103))])]); ("modules", D [("network", D [("decorators", PList []); ("type", Sv "local"); ("detail", D [("full", Sv "./network.bicep"); ("path", Sv "./network.bicep")]); ("config", D [("name", Sv "network"); ("params", D [("myIp", Sv "123.123.123.123")])]); ("__start_line__", PInt (219)); ("__end_line__", PInt (224))])]); ("outputs", D [("nsgId", D [("decorators", PList []); ("type", Sv "string"); ("value", D [("operator", D [("type", Sv "property_accessor"); ("operands", D [("operand_1", Sv "nsg"); ("operand_2", Sv "id")])])]); ("__start_line__", PInt (232)); ("__end_line__", PInt (232))]); ("appRegistrationId", D [("decorators", PList []); ("type", Sv "string"); ("value", D [("operator", D [("type", Sv "property_accessor"); ("operands", D [("operand_1", Sv "appRegistration"); ("operand_2", Sv "appId")])])]); ("__start_line__", PInt (233)); ("__end_line__", PInt (233))])])]) = true.
Proof. vm_compute. reflexivity. Qed.

(** tests/examples/complex/01-param-decorator/main.bicep *)
Example ex_complex_01_param_decorator : agrees false
"// allowed
@allowed([
  1
  2, 3
])
param zone int

@allowed([
  'one'
  'two'
])
param demoEnum string

// description
@description('Must be at least Standard_A3 to support 2 NICs.')
param virtualMachineSize string = 'Standard_DS1_v2'

@sys.description('Required. The IDs of the principals to assign the role to.')
param principalIds array

@description('''
Optional. Resource ID of an already existing subnet, e.g.: /subscriptions/<subscriptionId>/resourceGroups/<resourceGroupName>/providers/Microsoft.Network/virtualNetworks/<vnetName>/subnets/<subnetName>.
If no value is provided, a new temporary VNET and subnet will be created in the staging resource group and will be deleted along with the remaining temporary resources.
''')
param subnetId string = ''

// min/max length
@minLength(3)
param storageAccountName string

@maxLength(5)
param appNames array

// min/max value
@minValue(-1)
param month int

@maxValue(730)
param retentionInDays int

// metadata
@metadata({
  name: 'Module name'
  version: 'Module version or specify latest to get the latest version'
  uri: 'Module package uri, e.g. https://www.powershellgallery.com/api/v2/package'
})
param modules array = []

@metadata(
  {
    monthDays: 'Days of the month that the job should execute on. Must be between 1 and 31.'
    monthlyOccurrences: 'Occurrences of days within a month.'
    weekDays: 'Days of the week that the job should execute on.'
  }
)
param advancedSchedule object = {}

// secure
@secure()
param demoPassword string

// multiple decorators
@description('Password for the Virtual Machine.')
@minLength(12)
@secure()
#disable-next-line secure-secrets-in-params // Not a secret
param adminPassword string
"
  (D [("globals", D [("scope", D [("value", Sv "resourceGroup")])]); ("parameters", D [("zone", D [("decorators", PList [D [("type", Sv "allowed"); ("argument", PList [PInt (1); PInt (2); PInt (3)])]]); ("type", Sv "int"); ("default", PNone)]); ("demoEnum", D [("decorators", PList [D [("type", Sv "allowed"); ("argument", PList [Sv "one"; Sv "two"])]]); ("type", Sv "string"); ("default", PNone)]); ("virtualMachineSize", D [("decorators", PList [D [("type", Sv "description"); ("argument", Sv "Must be at least Standard_A3 to support 2 NICs.")]]); ("type", Sv "string"); ("default", Sv "Standard_DS1_v2")]); ("principalIds", D [("decorators", PList [D [("type", Sv "description"); ("argument", Sv "Required. The IDs of the principals to assign the role to.")]]); ("type", Sv "array"); ("default", PNone)]); ("subnetId", D [("decorators", PList [D [("type", Sv "description"); ("argument", Sv "Optional. Resource ID of an already existing subnet, e.g.: /subscriptions/<subscriptionId>/resourceGroups/<resourceGroupName>/providers/Microsoft.Network/virtualNetworks/<vnetName>/subnets/<subnetName>.
If no value is provided, a new temporary VNET and subnet will be created in the staging resource group and will be deleted along with the remaining temporary resources.
")]]); ("type", Sv "string"); ("default", Sv "")]); ("storageAccountName", D [("decorators", PList [D [("type", Sv "min_length"); ("argument", PInt (3))]]); ("type", Sv "string"); ("default", PNone)]); ("appNames", D [("decorators", PList [D [("type", Sv "max_length"); ("argument", PInt (5))]]); ("type", Sv "array"); ("default", PNone)]); ("month", D [("decorators", PList [D [("type", Sv "min_value"); ("argument", PInt (-1))]]); ("type", Sv "int"); ("default", PNone)]); ("retentionInDays", D [("decorators", PList [D [("type", Sv "max_value"); ("argument", PInt (730))]]); ("type", Sv "int"); ("default", PNone)]); ("modules", D [("decorators", PList [D [("type", Sv "metadata"); ("argument", D [("name", Sv "Module name"); ("version", Sv "Module version or specify latest to get the latest version"); ("uri", Sv "Module package uri, e.g. https://www.powershellgallery.com/api/v2/package")])]]); ("type", Sv "array"); ("default", PList [])]); ("advancedSchedule", D [("decorators", PList [D [("type", Sv "metadata"); ("argument", D [("monthDays", Sv "Days of the month that the job should execute on. Must be between 1 and 31."); ("monthlyOccurrences", Sv "Occurrences of days within a month."); ("weekDays", Sv "Days of the week that the job should execute on.")])]]); ("type", Sv "object"); ("default", D [])]); ("demoPassword", D [("decorators", PList [D [("type", Sv "secure")]]); ("type", Sv "string"); ("default", PNone)]); ("adminPassword", D [("decorators", PList [D [("type", Sv "description"); ("argument", Sv "Password for the Virtual Machine.")]; D [("type", Sv "min_length"); ("argument", PInt (12))]; D [("type", Sv "secure")]]); ("type", Sv "string"); ("default", PNone)])])]) = true.
Proof. vm_compute. reflexivity. Qed.

(** tests/examples/complex/02-resource-module-decorator/main.bicep *)
Example ex_complex_02_resource_module_decorator : agrees false
"// https://docs.microsoft.com/en-us/azure/azure-resource-manager/bicep/loops#deploy-in-batches

// resource
@batchSize(2)
resource storageAcct 'Microsoft.Storage/storageAccounts@2021-06-01' = [for i in range(0, 4): {
  name: '${i}storage${uniqueString(resourceGroup().id)}'
  location: location
  sku: {
    name: 'Standard_LRS'
  }
  kind: 'Storage'
}]

// module
@batchSize(1)
module sqlLogicalServer 'sql-logical-server.bicep' = [for (sqlLogicalServer, index) in sqlLogicalServers: {
  name: 'sqlLogicalServer-${index}'
  params: {
    sqlLogicalServer: union(defaultSqlLogicalServerProperties, sqlLogicalServer)
    password: sqlLogicalServer.passwordFromKeyVault.secretName
    tags: union(tags, union(defaultSqlLogicalServerProperties, sqlLogicalServer).tags)
  }
}]
"
  (D [("globals", D [("scope", D [("value", Sv "resourceGroup")])]); ("resources", D [("storageAcct", D [("decorators", PList [D [("type", Sv "batchSize"); ("argument", PInt (2))]]); ("type", Sv "Microsoft.Storage/storageAccounts"); ("api_version", Sv "2021-06-01"); ("existing", PBool false); ("config", D [("loop_type", D [("type", Sv "array"); ("detail", D [("item_name", Sv "i"); ("array_name", D [("function", D [("type", Sv "range"); ("parameters", D [("start_index", PInt (0)); ("count", PInt (4))])])])])]); ("condition", PNone); ("config", D [("name", Sv "${i}storage${uniqueString(resourceGroup().id)}"); ("location", Sv "location"); ("sku", D [("name", Sv "Standard_LRS")]); ("kind", Sv "Storage")])])])]); ("modules", D [("sqlLogicalServer", D [("decorators", PList [D [("type", Sv "batchSize"); ("argument", PInt (1))]]); ("type", Sv "local"); ("detail", D [("full", Sv "sql-logical-server.bicep"); ("path", Sv "sql-logical-server.bicep")]); ("config", D [("loop_type", D [("type", Sv "array_index"); ("detail", D [("item_name", Sv "sqlLogicalServer"); ("index_name", Sv "index"); ("array_name", Sv "sqlLogicalServers")])]); ("condition", PNone); ("config", D [("name", Sv "sqlLogicalServer-${index}"); ("params", D [("sqlLogicalServer", D [("function", D [("type", Sv "union"); ("parameters", D [("arg_1", Sv "defaultSqlLogicalServerProperties"); ("arg_2", Sv "sqlLogicalServer")])])]); ("password", D [("operator", D [("type", Sv "property_accessor"); ("operands", D [("operand_1", Sv "sqlLogicalServer"); ("operand_2", D [("operator", D [("type", Sv "property_accessor"); ("operands", D [("operand_1", Sv "passwordFromKeyVault"); ("operand_2", Sv "secretName")])])])])])]); ("tags", D [("function", D [("type", Sv "union"); ("parameters", D [("arg_1", Sv "tags"); ("arg_2", D [("operator", D [("type", Sv "property_accessor"); ("operands", D [("operand_1", D [("function", D [("type", Sv "union"); ("parameters", D [("arg_1", Sv "defaultSqlLogicalServerProperties"); ("arg_2", Sv "sqlLogicalServer")])])]); ("operand_2", Sv "tags")])])])])])])])])])])])]) = true.
Proof. vm_compute. reflexivity. Qed.

(** tests/examples/complex/03-resource-existing/main.bicep *)
Example ex_complex_03_resource_existing : agrees false
"// https://docs.microsoft.com/en-us/azure/azure-resource-manager/bicep/resource-declaration?tabs=azure-powershell#existing-resources

resource stg 'Microsoft.Storage/storageAccounts@2019-06-01' existing = {
  name: 'examplestorage'
}

output blobEndpoint string = stg.properties.primaryEndpoints.blob
"
  (D [("globals", D [("scope", D [("value", Sv "resourceGroup")])]); ("resources", D [("stg", D [("decorators", PList []); ("type", Sv "Microsoft.Storage/storageAccounts"); ("api_version", Sv "2019-06-01"); ("existing", PBool true); ("config", D [("name", Sv "examplestorage")])])]); ("outputs", D [("blobEndpoint", D [("decorators", PList []); ("type", Sv "string"); ("value", D [("operator", D [("type", Sv "property_accessor"); ("operands", D [("operand_1", Sv "stg"); ("operand_2", D [("operator", D [("type", Sv "property_accessor"); ("operands", D [("operand_1", Sv "properties"); ("operand_2", D [("operator", D [("type", Sv "property_accessor"); ("operands", D [("operand_1", Sv "primaryEndpoints"); ("operand_2", Sv "blob")])])])])])])])])])])])]) = true.
Proof. vm_compute. reflexivity. Qed.

(** tests/examples/complex/04-child-resource/main.bicep *)
Example ex_complex_04_child_resource : agrees false
"// https://docs.microsoft.com/en-us/azure/azure-resource-manager/bicep/child-resource-name-type

resource storage 'Microsoft.Storage/storageAccounts@2021-02-01' = {
  name: 'examplestorage'
  location: resourceGroup().location
  kind: 'StorageV2'
  sku: {
    name: 'Standard_LRS'
  }

  resource service 'fileServices' = {
    name: 'default'

    resource share 'shares' = {
      name: 'exampleshare'
    }
  }
}

resource ts 'Microsoft.Resources/templateSpecs@2019-06-01-preview' existing = {
  scope: resourceGroup(templateSpecSub, templateSpecRg)
  name: templateSpecName

  // reference to existing version
  resource tsVersion 'versions' existing = {
    name: templateSpecVersion
  }
}
"
  (D [("globals", D [("scope", D [("value", Sv "resourceGroup")])]); ("resources", D [("storage", D [("decorators", PList []); ("type", Sv "Microsoft.Storage/storageAccounts"); ("api_version", Sv "2021-02-01"); ("existing", PBool false); ("config", D [("name", Sv "examplestorage"); ("location", D [("operator", D [("type", Sv "property_accessor"); ("operands", D [("operand_1", D [("function", D [("type", Sv "resource_group"); ("parameters", D [("resource_group_name", PNone); ("subscription_id", PNone)])])]); ("operand_2", Sv "location")])])]); ("kind", Sv "StorageV2"); ("sku", D [("name", Sv "Standard_LRS")])])]); ("ts", D [("decorators", PList []); ("type", Sv "Microsoft.Resources/templateSpecs"); ("api_version", Sv "2019-06-01-preview"); ("existing", PBool true); ("config", D [("scope", D [("function", D [("type", Sv "resource_group"); ("parameters", D [("resource_group_name", Sv "templateSpecRg"); ("subscription_id", Sv "templateSpecSub")])])]); ("name", Sv "templateSpecName")])]); ("storage__service", D [("decorators", PList []); ("type", Sv "Microsoft.Storage/storageAccounts/fileServices"); ("api_version", Sv "2021-02-01"); ("existing", PBool false); ("config", D [("name", Sv "default"); ("depends_on", PList [Sv "storage"])])]); ("storage__service__share", D [("decorators", PList []); ("type", Sv "Microsoft.Storage/storageAccounts/fileServices/shares"); ("api_version", Sv "2021-02-01"); ("existing", PBool false); ("config", D [("name", Sv "exampleshare"); ("depends_on", PList [Sv "storage__service"])])]); ("ts__tsVersion", D [("decorators", PList []); ("type", Sv "Microsoft.Resources/templateSpecs/versions"); ("api_version", Sv "2019-06-01-preview"); ("existing", PBool true); ("config", D [("name", Sv "templateSpecVersion"); ("depends_on", PList [Sv "ts"])])])])]) = true.
Proof. vm_compute. reflexivity. Qed.

(** tests/examples/complex/05-deploy-condition/main.bicep *)
Example ex_complex_05_deploy_condition : agrees false
"// https://docs.microsoft.com/en-us/azure/azure-resource-manager/bicep/conditional-resource-deployment#deploy-condition

resource sa 'Microsoft.Storage/storageAccounts@2019-06-01' = if (newOrExisting == 'new') {
  name: storageAccountName
  location: location
  sku: {
    name: 'Standard_LRS'
    tier: 'Standard'
  }
  kind: 'StorageV2'
  properties: {
    accessTier: 'Hot'
  }
}

module apimUsers './users.bicep' = if (deployUsers) {
  params: {
    apimInstanceName: apiManagement.name
  }
  name: 'apimUsers'
}
"
  (D [("globals", D [("scope", D [("value", Sv "resourceGroup")])]); ("resources", D [("sa", D [("decorators", PList []); ("type", Sv "Microsoft.Storage/storageAccounts"); ("api_version", Sv "2019-06-01"); ("existing", PBool false); ("config", D [("condition", D [("operator", D [("type", Sv "equals"); ("operands", D [("operand_1", Sv "newOrExisting"); ("operand_2", Sv "new")])])]); ("config", D [("name", Sv "storageAccountName"); ("location", Sv "location"); ("sku", D [("name", Sv "Standard_LRS"); ("tier", Sv "Standard")]); ("kind", Sv "StorageV2"); ("properties", D [("accessTier", Sv "Hot")])])])])]); ("modules", D [("apimUsers", D [("decorators", PList []); ("type", Sv "local"); ("detail", D [("full", Sv "./users.bicep"); ("path", Sv "./users.bicep")]); ("config", D [("condition", Sv "deployUsers"); ("config", D [("params", D [("apimInstanceName", D [("operator", D [("type", Sv "property_accessor"); ("operands", D [("operand_1", Sv "apiManagement"); ("operand_2", Sv "name")])])])]); ("name", Sv "apimUsers")])])])])]) = true.
Proof. vm_compute. reflexivity. Qed.

(** tests/examples/complex/06-output-decorator/main.bicep *)
Example ex_complex_06_output_decorator : agrees false
"@description('Name of the created resource')
output resourceName string = StorageAccount.name

@description('Id of the created resource')
output resourceId string = StorageAccount.id
"
  (D [("globals", D [("scope", D [("value", Sv "resourceGroup")])]); ("outputs", D [("resourceName", D [("decorators", PList [D [("type", Sv "description"); ("argument", Sv "Name of the created resource")]]); ("type", Sv "string"); ("value", D [("operator", D [("type", Sv "property_accessor"); ("operands", D [("operand_1", Sv "StorageAccount"); ("operand_2", Sv "name")])])])]); ("resourceId", D [("decorators", PList [D [("type", Sv "description"); ("argument", Sv "Id of the created resource")]]); ("type", Sv "string"); ("value", D [("operator", D [("type", Sv "property_accessor"); ("operands", D [("operand_1", Sv "StorageAccount"); ("operand_2", Sv "id")])])])])])]) = true.
Proof. vm_compute. reflexivity. Qed.

(** tests/examples/complex/07-module-alias/main.bicep *)
Example ex_complex_07_module_alias : agrees false
"// https://docs.microsoft.com/en-us/azure/azure-resource-manager/bicep/bicep-config-modules

// public registry
module publicRegistryModule 'br/public:samples/hello-world:1.0.2' = {
  name: 'helloWorld'
  params: {
    name: 'John Dole'
  }
}

// private registry
module privateRegistryModule 'br/ContosoRegistry:storage:v1' = {
  name: 'storageDeploy'
  params: {
    storagePrefix: 'examplestg1'
  }
}

module privateDotRegistryModule 'br/registry:microsoft.resources:1.2.3' = {
  name: 'helloWorld'
  params: {
    name: 'John Dole'
  }
}

// template spec
module templateModule 'ts/CoreSpecs:storage:v1' = {
  name: 'storageDeploy'
  params: {
    storagePrefix: 'examplestg1'
  }
}
"
  (D [("globals", D [("scope", D [("value", Sv "resourceGroup")])]); ("modules", D [("publicRegistryModule", D [("decorators", PList []); ("type", Sv "bicep_registry_alias"); ("detail", D [("full", Sv "public:samples/hello-world:1.0.2"); ("alias", Sv "public"); ("path", Sv "samples/hello-world"); ("tag", Sv "1.0.2"); ("public", PBool true)]); ("config", D [("name", Sv "helloWorld"); ("params", D [("name", Sv "John Dole")])])]); ("privateRegistryModule", D [("decorators", PList []); ("type", Sv "bicep_registry_alias"); ("detail", D [("full", Sv "ContosoRegistry:storage:v1"); ("alias", Sv "ContosoRegistry"); ("path", Sv "storage"); ("tag", Sv "v1"); ("public", PBool false)]); ("config", D [("name", Sv "storageDeploy"); ("params", D [("storagePrefix", Sv "examplestg1")])])]); ("privateDotRegistryModule", D [("decorators", PList []); ("type", Sv "bicep_registry_alias"); ("detail", D [("full", Sv "registry:microsoft.resources:1.2.3"); ("alias", Sv "registry"); ("path", Sv "microsoft.resources"); ("tag", Sv "1.2.3"); ("public", PBool false)]); ("config", D [("name", Sv "helloWorld"); ("params", D [("name", Sv "John Dole")])])]); ("templateModule", D [("decorators", PList []); ("type", Sv "template_spec_alias"); ("detail", D [("full", Sv "CoreSpecs:storage:v1"); ("alias", Sv "CoreSpecs"); ("path", Sv "storage"); ("tag", Sv "v1")]); ("config", D [("name", Sv "storageDeploy"); ("params", D [("storagePrefix", Sv "examplestg1")])])])])]) = true.
Proof. vm_compute. reflexivity. Qed.

(** tests/examples/complex/08-var-decorator/main.bicep *)
Example ex_complex_08_var_decorator : agrees false
"@description('Name of the storage account')
var saName = 'example'

@description('Id of the resource group')
var rgId = resourceGroup().id

@export()
var myConstant = 'This is a constant value'
"
  (D [("globals", D [("scope", D [("value", Sv "resourceGroup")])]); ("variables", D [("saName", D [("decorators", PList [D [("type", Sv "description"); ("argument", Sv "Name of the storage account")]]); ("value", Sv "example")]); ("rgId", D [("decorators", PList [D [("type", Sv "description"); ("argument", Sv "Id of the resource group")]]); ("value", D [("operator", D [("type", Sv "property_accessor"); ("operands", D [("operand_1", D [("function", D [("type", Sv "resource_group"); ("parameters", D [("resource_group_name", PNone); ("subscription_id", PNone)])])]); ("operand_2", Sv "id")])])])]); ("myConstant", D [("decorators", PList [D [("type", Sv "export")]]); ("value", Sv "This is a constant value")])])]) = true.
Proof. vm_compute. reflexivity. Qed.

(** tests/examples/complex/09-metadata/main.bicep *)
Example ex_complex_09_metadata : agrees false
"metadata name = 'Test file for parser'
metadata description = 'Test file for parser'
metadata owner = 'community'
"
  (D [("globals", D [("scope", D [("value", Sv "resourceGroup")])]); ("metadata", D [("name", D [("value", Sv "Test file for parser")]); ("description", D [("value", Sv "Test file for parser")]); ("owner", D [("value", Sv "community")])])]) = true.
Proof. vm_compute. reflexivity. Qed.

(** tests/examples/complex/10-extension/main.bicep *)
Example ex_complex_10_extension : agrees false
"// https://docs.azure.cn/en-us/azure-resource-manager/bicep/bicep-extension

// Simple extension
extension microsoftGraphV1

// Extension with config and alias
extension kubernetes with {
  namespace: 'default'
  kubeConfig: 'someKubeConfig'
} as k8s
"
  (D [("globals", D [("scope", D [("value", Sv "resourceGroup")])]); ("extensions", D [("microsoftGraphV1", D []); ("kubernetes", D [("config", D [("namespace", Sv "default"); ("kubeConfig", Sv "someKubeConfig")]); ("alias", Sv "k8s")])])]) = true.
Proof. vm_compute. reflexivity. Qed.

(** tests/examples/complex/11-typed-var/main.bicep *)
Example ex_complex_11_typed_var : agrees false
"// https://docs.azure.cn/en-us/azure-resource-manager/bicep/variables#typed-variables

// basic types
var resourceName string = 'myResource'
var instanceCount int = 3
var isProduction bool = true

// arrays
var mixedArray array = [
  resourceGroup().name
  1
  // some comment
  true
  'example string'
  'comma', 'separated', 'elements'
]
var subnets array = ['subnet1', 'subnet2']

// objects
var mixedObject object = {
  name: resourceGroup().name
  integer: 1
  // some comment
  boolean: true
  example: 'string'
}
var tags object = { environment: 'dev' }

// schema not supported yet
// var config {
//   name: string
//   count: int
//   enabled: bool
// } = {
//   name: 'myApp'
//   count: 5
//   enabled: true
// }
"
  (D [("globals", D [("scope", D [("value", Sv "resourceGroup")])]); ("variables", D [("resourceName", D [("decorators", PList []); ("value", Sv "myResource"); ("type", Sv "string")]); ("instanceCount", D [("decorators", PList []); ("value", PInt (3)); ("type", Sv "int")]); ("isProduction", D [("decorators", PList []); ("value", PBool true); ("type", Sv "bool")]); ("mixedArray", D [("decorators", PList []); ("value", PList [D [("operator", D [("type", Sv "property_accessor"); ("operands", D [("operand_1", D [("function", D [("type", Sv "resource_group"); ("parameters", D [("resource_group_name", PNone); ("subscription_id", PNone)])])]); ("operand_2", Sv "name")])])]; PInt (1); PBool true; Sv "example string"; Sv "comma"; Sv "separated"; Sv "elements"]); ("type", Sv "array")]); ("subnets", D [("decorators", PList []); ("value", PList [Sv "subnet1"; Sv "subnet2"]); ("type", Sv "array")]); ("mixedObject", D [("decorators", PList []); ("value", D [("name", D [("operator", D [("type", Sv "property_accessor"); ("operands", D [("operand_1", D [("function", D [("type", Sv "resource_group"); ("parameters", D [("resource_group_name", PNone); ("subscription_id", PNone)])])]); ("operand_2", Sv "name")])])]); ("integer", PInt (1)); ("boolean", PBool true); ("example", Sv "string")]); ("type", Sv "object")]); ("tags", D [("decorators", PList []); ("value", D [("environment", Sv "dev")]); ("type", Sv "object")])])]) = true.
Proof. vm_compute. reflexivity. Qed.

(** tests/examples/complex/12-nullable-type/main.bicep *)
Example ex_complex_12_nullable_type : agrees false
"// https://docs.azure.cn/en-us/azure-resource-manager/bicep/data-types#nullable-types

// param
param name string?
param age int?

// var
var nullVar = null
var stringVar string? = null

// output
output description string? = name
output config object? = null
"
  (D [("globals", D [("scope", D [("value", Sv "resourceGroup")])]); ("parameters", D [("name", D [("decorators", PList []); ("type", Sv "string"); ("default", PNone)]); ("age", D [("decorators", PList []); ("type", Sv "int"); ("default", PNone)])]); ("variables", D [("nullVar", D [("decorators", PList []); ("value", PNone)]); ("stringVar", D [("decorators", PList []); ("value", PNone); ("type", Sv "string")])]); ("outputs", D [("description", D [("decorators", PList []); ("type", Sv "string"); ("value", Sv "name")]); ("config", D [("decorators", PList []); ("type", Sv "object"); ("value", PNone)])])]) = true.
Proof. vm_compute. reflexivity. Qed.

(** tests/examples/complex/13-import/main.bicep *)
Example ex_complex_13_import : agrees false
"// https://docs.azure.cn/en-us/azure-resource-manager/bicep/bicep-import#import-variables-types-and-functions
// https://docs.azure.cn/en-us/azure-resource-manager/bicep/bicep-import#import-namespaces

// simple import
import {myConstant} from '../exports.bicep'
import { myObjectType, sayHello } from 'exports.bicep'

// alias import
import {kubernetes as k8s } from 'exports.bicep'
import { pandas as pd, networkx as nx } from 'exports.bicep'

// mixed import
import { identityPrefixes as prefixes , tagsType } from '../../configuration/shared/shared.bicep'

// wildcard import
import * as myImports from 'exports.bicep'

// namespace import
import 'az@1.0.0'
import 'sys@1.0.0'
"
  (D [("globals", D [("scope", D [("value", Sv "resourceGroup")])]); ("imports", D [("myConstant", D [("file_path", Sv "../exports.bicep")]); ("myObjectType", D [("file_path", Sv "exports.bicep")]); ("sayHello", D [("file_path", Sv "exports.bicep")]); ("kubernetes", D [("file_path", Sv "exports.bicep"); ("alias", Sv "k8s")]); ("pandas", D [("file_path", Sv "exports.bicep"); ("alias", Sv "pd")]); ("networkx", D [("file_path", Sv "exports.bicep"); ("alias", Sv "nx")]); ("identityPrefixes", D [("file_path", Sv "../../configuration/shared/shared.bicep"); ("alias", Sv "prefixes")]); ("tagsType", D [("file_path", Sv "../../configuration/shared/shared.bicep")]); ("*", D [("file_path", Sv "exports.bicep"); ("alias", Sv "myImports")]); ("az@1.0.0", D []); ("sys@1.0.0", D [])])]) = true.
Proof. vm_compute. reflexivity. Qed.

(** tests/examples/complex/14-type-decorator/main.bicep *)
Example ex_complex_14_type_decorator : agrees false
"@export()
type myObjectType = {
  foo: string
  bar: int
}

@sealed()
type anObject = {
  property: string
  optionalProperty: string?
}
"
  (D [("globals", D [("scope", D [("value", Sv "resourceGroup")])]); ("types", D [("myObjectType", D [("decorators", PList [D [("type", Sv "export")]]); ("value", D [("foo", Sv "string"); ("bar", Sv "int")])]); ("anObject", D [("decorators", PList [D [("type", Sv "sealed")]]); ("value", D [("property", Sv "string"); ("optionalProperty", Sv "string")])])])]) = true.
Proof. vm_compute. reflexivity. Qed.

(** tests/examples/loop/array-index/main.bicep *)
Example ex_loop_array_index : agrees false
"// variable
var stringArray = [for (item, i) in range(0, itemCount): 'item${(i + 1)}']

// output
output deployedNSGs array = [for (name, i) in orgNames: {
  orgName: name
  nsgName: nsg[i].name
  resourceId: nsg[i].id
}]

// resource
resource storageArrayIndex 'Microsoft.Storage/storageAccounts@2021-06-01' = [for (config, i) in storageConfigurations: {
  name: '${storageAccountNamePrefix}${config.suffix}${i}'
  location: resourceGroup().location
  sku: {
    name: config.sku
  }
  kind: 'StorageV2'
}]

// module
module sqlLogicalServer 'sql-logical-server.bicep' = [for (sqlLogicalServer, index) in sqlLogicalServers: {
  name: 'sqlLogicalServer-${index}'
  params: {
    sqlLogicalServer: union(defaultSqlLogicalServerProperties, sqlLogicalServer)
    password: sqlLogicalServer.passwordFromKeyVault.secretName
    tags: union(tags, union(defaultSqlLogicalServerProperties, sqlLogicalServer).tags)
  }
}]
"
  (D [("globals", D [("scope", D [("value", Sv "resourceGroup")])]); ("variables", D [("stringArray", D [("decorators", PList []); ("value", D [("loop_type", D [("type", Sv "array_index"); ("detail", D [("item_name", Sv "item"); ("index_name", Sv "i"); ("array_name", D [("function", D [("type", Sv "range"); ("parameters", D [("start_index", PInt (0)); ("count", Sv "itemCount")])])])])]); ("condition", PNone); ("config", Sv "item${(i + 1)}")])])]); ("outputs", D [("deployedNSGs", D [("decorators", PList []); ("type", Sv "array"); ("value", D [("loop_type", D [("type", Sv "array_index"); ("detail", D [("item_name", Sv "name"); ("index_name", Sv "i"); ("array_name", Sv "orgNames")])]); ("condition", PNone); ("config", D [("orgName", Sv "name"); ("nsgName", D [("operator", D [("type", Sv "property_accessor"); ("operands", D [("operand_1", D [("operator", D [("type", Sv "index_accessor"); ("operands", D [("operand_1", Sv "nsg"); ("operand_2", Sv "i")])])]); ("operand_2", Sv "name")])])]); ("resourceId", D [("operator", D [("type", Sv "property_accessor"); ("operands", D [("operand_1", D [("operator", D [("type", Sv "index_accessor"); ("operands", D [("operand_1", Sv "nsg"); ("operand_2", Sv "i")])])]); ("operand_2", Sv "id")])])])])])])]); ("resources", D [("storageArrayIndex", D [("decorators", PList []); ("type", Sv "Microsoft.Storage/storageAccounts"); ("api_version", Sv "2021-06-01"); ("existing", PBool false); ("config", D [("loop_type", D [("type", Sv "array_index"); ("detail", D [("item_name", Sv "config"); ("index_name", Sv "i"); ("array_name", Sv "storageConfigurations")])]); ("condition", PNone); ("config", D [("name", Sv "${storageAccountNamePrefix}${config.suffix}${i}"); ("location", D [("operator", D [("type", Sv "property_accessor"); ("operands", D [("operand_1", D [("function", D [("type", Sv "resource_group"); ("parameters", D [("resource_group_name", PNone); ("subscription_id", PNone)])])]); ("operand_2", Sv "location")])])]); ("sku", D [("name", D [("operator", D [("type", Sv "property_accessor"); ("operands", D [("operand_1", Sv "config"); ("operand_2", Sv "sku")])])])]); ("kind", Sv "StorageV2")])])])]); ("modules", D [("sqlLogicalServer", D [("decorators", PList []); ("type", Sv "local"); ("detail", D [("full", Sv "sql-logical-server.bicep"); ("path", Sv "sql-logical-server.bicep")]); ("config", D [("loop_type", D [("type", Sv "array_index"); ("detail", D [("item_name", Sv "sqlLogicalServer"); ("index_name", Sv "index"); ("array_name", Sv "sqlLogicalServers")])]); ("condition", PNone); ("config", D [("name", Sv "sqlLogicalServer-${index}"); ("params", D [("sqlLogicalServer", D [("function", D [("type", Sv "union"); ("parameters", D [("arg_1", Sv "defaultSqlLogicalServerProperties"); ("arg_2", Sv "sqlLogicalServer")])])]); ("password", D [("operator", D [("type", Sv "property_accessor"); ("operands", D [("operand_1", Sv "sqlLogicalServer"); ("operand_2", D [("operator", D [("type", Sv "property_accessor"); ("operands", D [("operand_1", Sv "passwordFromKeyVault"); ("operand_2", Sv "secretName")])])])])])]); ("tags", D [("function", D [("type", Sv "union"); ("parameters", D [("arg_1", Sv "tags"); ("arg_2", D [("operator", D [("type", Sv "property_accessor"); ("operands", D [("operand_1", D [("function", D [("type", Sv "union"); ("parameters", D [("arg_1", Sv "defaultSqlLogicalServerProperties"); ("arg_2", Sv "sqlLogicalServer")])])]); ("operand_2", Sv "tags")])])])])])])])])])])])]) = true.
Proof. vm_compute. reflexivity. Qed.

(** tests/examples/loop/array-w-newline/main.bicep *)
Example ex_loop_array_w_newline : agrees false
"// variable
var resourceAccessRules = [
  for (id, item) in networkAccess_resource: {
    tenantId: az.subscription().tenantId
    resourceId: networkAccess_resource[item]
  }
]

// output
output deployedNSGs array = [
    for (name, i) in orgNames: {
      orgName: name
      nsgName: nsg[i].name
      resourceId: nsg[i].id
    }
]

// resource
/*
resource storageAccount_resource 'Microsoft.Storage/storageAccounts@2023-05-01' = {
  name: storageAccountName
  location: location
  tags: tags
  sku: {
    name: storageAccountType
  }
  kind: storageAccountKind
  properties: {
    accessTier: storageAccountAccessTier
    minimumTlsVersion: 'TLS1_2'
    supportsHttpsTrafficOnly: true
    allowBlobPublicAccess: false
    allowCrossTenantReplication: true
    encryption: {
      keySource: 'Microsoft.Storage'
      requireInfrastructureEncryption: false
      services: {
        blob: {
          enabled: true
          keyType: 'Account'
        }
        file: {
          enabled: true
          keyType: 'Account'
        }
        queue: {
          enabled: true
          keyType: 'Account'
        }
        table: {
          enabled: true
          keyType: 'Account'
        }
      }
    }
    isHnsEnabled: storageAccountHnsEnabled
    isLocalUserEnabled: false
    isNfsV3Enabled: false
    isSftpEnabled: false
    keyPolicy: {
      keyExpirationPeriodInDays: 90
    }
    largeFileSharesState: 'Disabled'
    publicNetworkAccess: 'Enabled'
    networkAcls: {
      resourceAccessRules: networkAccess_resource == [''] || networkAccess_resource == [] ? [] : resourceAccessRules
      bypass: 'AzureServices'
      defaultAction: networkAccess_default
      virtualNetworkRules: empty(networkingResourceGroupName) && empty(virtualNetworkName) && empty(virtualNetworkSubnetName)
        ? []
        : [
            {
              id: virtualNetwork_resource::subnet.id
              action: 'Allow'
            }
          ]
    }
  }
}
*/

// module
module sqlLogicalServer 'sql-logical-server.bicep' = [
    for (sqlLogicalServer, index) in sqlLogicalServers: {
      name: 'sqlLogicalServer-${index}'
      params: {
        sqlLogicalServer: union(defaultSqlLogicalServerProperties, sqlLogicalServer)
        password: sqlLogicalServer.passwordFromKeyVault.secretName
        tags: union(tags, union(defaultSqlLogicalServerProperties, sqlLogicalServer).tags)
      }
    }
]
"
  (D [("globals", D [("scope", D [("value", Sv "resourceGroup")])]); ("variables", D [("resourceAccessRules", D [("decorators", PList []); ("value", D [("loop_type", D [("type", Sv "array_index"); ("detail", D [("item_name", Sv "id"); ("index_name", Sv "item"); ("array_name", Sv "networkAccess_resource")])]); ("condition", PNone); ("config", D [("tenantId", D [("operator", D [("type", Sv "property_accessor"); ("operands", D [("operand_1", D [("function", D [("type", Sv "subscription"); ("parameters", D [("subscription_id", PNone)])])]); ("operand_2", Sv "tenantId")])])]); ("resourceId", D [("operator", D [("type", Sv "index_accessor"); ("operands", D [("operand_1", Sv "networkAccess_resource"); ("operand_2", Sv "item")])])])])])])]); ("outputs", D [("deployedNSGs", D [("decorators", PList []); ("type", Sv "array"); ("value", D [("loop_type", D [("type", Sv "array_index"); ("detail", D [("item_name", Sv "name"); ("index_name", Sv "i"); ("array_name", Sv "orgNames")])]); ("condition", PNone); ("config", D [("orgName", Sv "name"); ("nsgName", D [("operator", D [("type", Sv "property_accessor"); ("operands", D [("operand_1", D [("operator", D [("type", Sv "index_accessor"); ("operands", D [("operand_1", Sv "nsg"); ("operand_2", Sv "i")])])]); ("operand_2", Sv "name")])])]); ("resourceId", D [("operator", D [("type", Sv "property_accessor"); ("operands", D [("operand_1", D [("operator", D [("type", Sv "index_accessor"); ("operands", D [("operand_1", Sv "nsg"); ("operand_2", Sv "i")])])]); ("operand_2", Sv "id")])])])])])])]); ("modules", D [("sqlLogicalServer", D [("decorators", PList []); ("type", Sv "local"); ("detail", D [("full", Sv "sql-logical-server.bicep"); ("path", Sv "sql-logical-server.bicep")]); ("config", D [("loop_type", D [("type", Sv "array_index"); ("detail", D [("item_name", Sv "sqlLogicalServer"); ("index_name", Sv "index"); ("array_name", Sv "sqlLogicalServers")])]); ("condition", PNone); ("config", D [("name", Sv "sqlLogicalServer-${index}"); ("params", D [("sqlLogicalServer", D [("function", D [("type", Sv "union"); ("parameters", D [("arg_1", Sv "defaultSqlLogicalServerProperties"); ("arg_2", Sv "sqlLogicalServer")])])]); ("password", D [("operator", D [("type", Sv "property_accessor"); ("operands", D [("operand_1", Sv "sqlLogicalServer"); ("operand_2", D [("operator", D [("type", Sv "property_accessor"); ("operands", D [("operand_1", Sv "passwordFromKeyVault"); ("operand_2", Sv "secretName")])])])])])]); ("tags", D [("function", D [("type", Sv "union"); ("parameters", D [("arg_1", Sv "tags"); ("arg_2", D [("operator", D [("type", Sv "property_accessor"); ("operands", D [("operand_1", D [("function", D [("type", Sv "union"); ("parameters", D [("arg_1", Sv "defaultSqlLogicalServerProperties"); ("arg_2", Sv "sqlLogicalServer")])])]); ("operand_2", Sv "tags")])])])])])])])])])])])]) = true.
Proof. vm_compute. reflexivity. Qed.

(** tests/examples/loop/array/main.bicep *)
Example ex_loop_array : agrees false
"// variable
var stringArray = [for i in range(0, itemCount): 'item${(i + 1)}']

// output
output out1 array = [for i in bicepVarArray: {
  element: i
}]

// resource
resource storageArray 'Microsoft.Storage/storageAccounts@2021-06-01' = [for name in storageNames: {
  name: '${name}${uniqueString(resourceGroup().id)}'
  location: location
  sku: {
    name: 'Standard_LRS'
  }
  kind: 'Storage'
}]

// module
module sqlFirewallRules 'sql-firewall-rule.bicep' = [for firewallRules in sqlLogicalServer.firewallRules: {
  name: 'sqlFirewallRule-${uniqueString(sqlLogicalServer.name)}'
  params: {
    sqlFirewallRule: firewallRules
    sqlServerName: sqlLogicalServer.name
  }
}]

// property
resource parentResources 'Microsoft.Example/examples@2020-06-06' = [for parent in parents: {
  name: parent.name
  properties: {
    children: [for child in parent.children: {
      name: child.name
      setting: child.settingValue
    }]
  }
}]
"
  (D [("globals", D [("scope", D [("value", Sv "resourceGroup")])]); ("variables", D [("stringArray", D [("decorators", PList []); ("value", D [("loop_type", D [("type", Sv "array"); ("detail", D [("item_name", Sv "i"); ("array_name", D [("function", D [("type", Sv "range"); ("parameters", D [("start_index", PInt (0)); ("count", Sv "itemCount")])])])])]); ("condition", PNone); ("config", Sv "item${(i + 1)}")])])]); ("outputs", D [("out1", D [("decorators", PList []); ("type", Sv "array"); ("value", D [("loop_type", D [("type", Sv "array"); ("detail", D [("item_name", Sv "i"); ("array_name", Sv "bicepVarArray")])]); ("condition", PNone); ("config", D [("element", Sv "i")])])])]); ("resources", D [("storageArray", D [("decorators", PList []); ("type", Sv "Microsoft.Storage/storageAccounts"); ("api_version", Sv "2021-06-01"); ("existing", PBool false); ("config", D [("loop_type", D [("type", Sv "array"); ("detail", D [("item_name", Sv "name"); ("array_name", Sv "storageNames")])]); ("condition", PNone); ("config", D [("name", Sv "${name}${uniqueString(resourceGroup().id)}"); ("location", Sv "location"); ("sku", D [("name", Sv "Standard_LRS")]); ("kind", Sv "Storage")])])]); ("parentResources", D [("decorators", PList []); ("type", Sv "Microsoft.Example/examples"); ("api_version", Sv "2020-06-06"); ("existing", PBool false); ("config", D [("loop_type", D [("type", Sv "array"); ("detail", D [("item_name", Sv "parent"); ("array_name", Sv "parents")])]); ("condition", PNone); ("config", D [("name", D [("operator", D [("type", Sv "property_accessor"); ("operands", D [("operand_1", Sv "parent"); ("operand_2", Sv "name")])])]); ("properties", D [("children", D [("loop_type", D [("type", Sv "array"); ("detail", D [("item_name", Sv "child"); ("array_name", D [("operator", D [("type", Sv "property_accessor"); ("operands", D [("operand_1", Sv "parent"); ("operand_2", Sv "children")])])])])]); ("condition", PNone); ("config", D [("name", D [("operator", D [("type", Sv "property_accessor"); ("operands", D [("operand_1", Sv "child"); ("operand_2", Sv "name")])])]); ("setting", D [("operator", D [("type", Sv "property_accessor"); ("operands", D [("operand_1", Sv "child"); ("operand_2", Sv "settingValue")])])])])])])])])])]); ("modules", D [("sqlFirewallRules", D [("decorators", PList []); ("type", Sv "local"); ("detail", D [("full", Sv "sql-firewall-rule.bicep"); ("path", Sv "sql-firewall-rule.bicep")]); ("config", D [("loop_type", D [("type", Sv "array"); ("detail", D [("item_name", Sv "firewallRules"); ("array_name", D [("operator", D [("type", Sv "property_accessor"); ("operands", D [("operand_1", Sv "sqlLogicalServer"); ("operand_2", Sv "firewallRules")])])])])]); ("condition", PNone); ("config", D [("name", Sv "sqlFirewallRule-${uniqueString(sqlLogicalServer.name)}"); ("params", D [("sqlFirewallRule", Sv "firewallRules"); ("sqlServerName", D [("operator", D [("type", Sv "property_accessor"); ("operands", D [("operand_1", Sv "sqlLogicalServer"); ("operand_2", Sv "name")])])])])])])])])]) = true.
Proof. vm_compute. reflexivity. Qed.

(** tests/examples/loop/child/main.bicep *)
Example ex_loop_child : agrees false
"resource storageAccount 'Microsoft.Storage/storageAccounts@2023-01-01' = {
  name: storageAccountName

  resource tableService 'tableServices' = {
    name: 'default'

    resource tableList 'tables' = [for tableName in storageTables: {
      name: tableName
    }]
  }

  resource queueService 'queueServices' = {
    name: 'default'

    resource queueList 'queues' = [for queueName in storageQueues: {
      name: queueName
    }]
  }
}
"
  (D [("globals", D [("scope", D [("value", Sv "resourceGroup")])]); ("resources", D [("storageAccount", D [("decorators", PList []); ("type", Sv "Microsoft.Storage/storageAccounts"); ("api_version", Sv "2023-01-01"); ("existing", PBool false); ("config", D [("name", Sv "storageAccountName")])]); ("storageAccount__queueService", D [("decorators", PList []); ("type", Sv "Microsoft.Storage/storageAccounts/queueServices"); ("api_version", Sv "2023-01-01"); ("existing", PBool false); ("config", D [("name", Sv "default"); ("depends_on", PList [Sv "storageAccount"])])]); ("storageAccount__queueService__queueList", D [("decorators", PList []); ("type", Sv "Microsoft.Storage/storageAccounts/queueServices/queues"); ("api_version", Sv "2023-01-01"); ("existing", PBool false); ("config", D [("loop_type", D [("type", Sv "array"); ("detail", D [("item_name", Sv "queueName"); ("array_name", Sv "storageQueues")])]); ("condition", PNone); ("config", D [("name", Sv "queueName")]); ("depends_on", PList [Sv "storageAccount__queueService"])])])])]) = true.
Proof. vm_compute. reflexivity. Qed.

(** tests/examples/loop/condition/main.bicep *)
Example ex_loop_condition : agrees false
"// resource
resource parentResources 'Microsoft.Example/examples@2020-06-06' = [for parent in parents: if(parent.enabled) {
  name: parent.name
  properties: {
    children: [for child in parent.children: {
      name: child.name
      setting: child.settingValue
    }]
  }
}]

// module
module stgModule './storageAccount.bicep' = [for i in range(0, storageCount): if(createNewStorage) {
  name: '${i}deploy${baseName}'
  params: {
    storageName: '${i}${baseName}'
    location: location
  }
}]
"
  (D [("globals", D [("scope", D [("value", Sv "resourceGroup")])]); ("resources", D [("parentResources", D [("decorators", PList []); ("type", Sv "Microsoft.Example/examples"); ("api_version", Sv "2020-06-06"); ("existing", PBool false); ("config", D [("loop_type", D [("type", Sv "array"); ("detail", D [("item_name", Sv "parent"); ("array_name", Sv "parents")])]); ("condition", D [("operator", D [("type", Sv "property_accessor"); ("operands", D [("operand_1", Sv "parent"); ("operand_2", Sv "enabled")])])]); ("config", D [("name", D [("operator", D [("type", Sv "property_accessor"); ("operands", D [("operand_1", Sv "parent"); ("operand_2", Sv "name")])])]); ("properties", D [("children", D [("loop_type", D [("type", Sv "array"); ("detail", D [("item_name", Sv "child"); ("array_name", D [("operator", D [("type", Sv "property_accessor"); ("operands", D [("operand_1", Sv "parent"); ("operand_2", Sv "children")])])])])]); ("condition", PNone); ("config", D [("name", D [("operator", D [("type", Sv "property_accessor"); ("operands", D [("operand_1", Sv "child"); ("operand_2", Sv "name")])])]); ("setting", D [("operator", D [("type", Sv "property_accessor"); ("operands", D [("operand_1", Sv "child"); ("operand_2", Sv "settingValue")])])])])])])])])])]); ("modules", D [("stgModule", D [("decorators", PList []); ("type", Sv "local"); ("detail", D [("full", Sv "./storageAccount.bicep"); ("path", Sv "./storageAccount.bicep")]); ("config", D [("loop_type", D [("type", Sv "array"); ("detail", D [("item_name", Sv "i"); ("array_name", D [("function", D [("type", Sv "range"); ("parameters", D [("start_index", PInt (0)); ("count", Sv "storageCount")])])])])]); ("condition", Sv "createNewStorage"); ("config", D [("name", Sv "${i}deploy${baseName}"); ("params", D [("storageName", Sv "${i}${baseName}"); ("location", Sv "location")])])])])])]) = true.
Proof. vm_compute. reflexivity. Qed.

(** tests/examples/loop/object/main.bicep *)
Example ex_loop_object : agrees false
"// output
output inputObjKeys array = [for item in items(inputObj): item.key]

// resource
resource nsgObject 'Microsoft.Network/networkSecurityGroups@2020-06-01' = [for nsg in items(nsgValues): {
  name: nsg.value.name
  location: nsg.value.location
}]
"
  (D [("globals", D [("scope", D [("value", Sv "resourceGroup")])]); ("outputs", D [("inputObjKeys", D [("decorators", PList []); ("type", Sv "array"); ("value", D [("loop_type", D [("type", Sv "array"); ("detail", D [("item_name", Sv "item"); ("array_name", D [("function", D [("type", Sv "items"); ("parameters", D [("arg_1", Sv "inputObj")])])])])]); ("condition", PNone); ("config", D [("operator", D [("type", Sv "property_accessor"); ("operands", D [("operand_1", Sv "item"); ("operand_2", Sv "key")])])])])])]); ("resources", D [("nsgObject", D [("decorators", PList []); ("type", Sv "Microsoft.Network/networkSecurityGroups"); ("api_version", Sv "2020-06-01"); ("existing", PBool false); ("config", D [("loop_type", D [("type", Sv "array"); ("detail", D [("item_name", Sv "nsg"); ("array_name", D [("function", D [("type", Sv "items"); ("parameters", D [("arg_1", Sv "nsgValues")])])])])]); ("condition", PNone); ("config", D [("name", D [("operator", D [("type", Sv "property_accessor"); ("operands", D [("operand_1", Sv "nsg"); ("operand_2", D [("operator", D [("type", Sv "property_accessor"); ("operands", D [("operand_1", Sv "value"); ("operand_2", Sv "name")])])])])])]); ("location", D [("operator", D [("type", Sv "property_accessor"); ("operands", D [("operand_1", Sv "nsg"); ("operand_2", D [("operator", D [("type", Sv "property_accessor"); ("operands", D [("operand_1", Sv "value"); ("operand_2", Sv "location")])])])])])])])])])])]) = true.
Proof. vm_compute. reflexivity. Qed.

(** tests/examples/scope/management_group/main.bicep *)
Example ex_scope_management_group : agrees false
"// https://docs.microsoft.com/en-us/azure/azure-resource-manager/bicep/deploy-to-management-group

targetScope = 'managementGroup'

@description('Target Management Group')
param targetMG string

@description('An array of the allowed locations, all other locations will be denied by the created policy.')
param allowedLocations array = [
  'australiaeast'
  'australiasoutheast'
  'australiacentral'
]

var mgScope = tenantResourceId('Microsoft.Management/managementGroups', targetMG)
var policyDefinitionName = 'LocationRestriction'

resource policyDefinition 'Microsoft.Authorization/policyDefinitions@2020-03-01' = {
  name: policyDefinitionName
  properties: {
    policyType: 'Custom'
    mode: 'All'
    parameters: {}
    policyRule: {
      if: {
        not: {
          field: 'location'
          in: allowedLocations
        }
      }
      then: {
        effect: 'deny'
      }
    }
  }
}

resource policyAssignment 'Microsoft.Authorization/policyAssignments@2020-03-01' = {
  name: 'location-lock'
  properties: {
    scope: mgScope
    policyDefinitionId: extensionResourceId(mgScope, 'Microsoft.Authorization/policyDefinitions', policyDefinition.name)
  }
}
"
  (D [("globals", D [("scope", D [("value", Sv "managementGroup")])]); ("parameters", D [("targetMG", D [("decorators", PList [D [("type", Sv "description"); ("argument", Sv "Target Management Group")]]); ("type", Sv "string"); ("default", PNone)]); ("allowedLocations", D [("decorators", PList [D [("type", Sv "description"); ("argument", Sv "An array of the allowed locations, all other locations will be denied by the created policy.")]]); ("type", Sv "array"); ("default", PList [Sv "australiaeast"; Sv "australiasoutheast"; Sv "australiacentral"])])]); ("variables", D [("mgScope", D [("decorators", PList []); ("value", D [("function", D [("type", Sv "tenant_resource_id"); ("parameters", D [("resource_type", Sv "Microsoft.Management/managementGroups"); ("resource_name_1", Sv "targetMG"); ("resource_name_2", PNone)])])])]); ("policyDefinitionName", D [("decorators", PList []); ("value", Sv "LocationRestriction")])]); ("resources", D [("policyDefinition", D [("decorators", PList []); ("type", Sv "Microsoft.Authorization/policyDefinitions"); ("api_version", Sv "2020-03-01"); ("existing", PBool false); ("config", D [("name", Sv "policyDefinitionName"); ("properties", D [("policyType", Sv "Custom"); ("mode", Sv "All"); ("parameters", D []); ("policyRule", D [("if", D [("not", D [("field", Sv "location"); ("in", Sv "allowedLocations")])]); ("then", D [("effect", Sv "deny")])])])])]); ("policyAssignment", D [("decorators", PList []); ("type", Sv "Microsoft.Authorization/policyAssignments"); ("api_version", Sv "2020-03-01"); ("existing", PBool false); ("config", D [("name", Sv "location-lock"); ("properties", D [("scope", Sv "mgScope"); ("policyDefinitionId", D [("function", D [("type", Sv "extension_resource_id"); ("parameters", D [("resource_id", Sv "mgScope"); ("resource_type", Sv "Microsoft.Authorization/policyDefinitions"); ("resource_name_1", D [("operator", D [("type", Sv "property_accessor"); ("operands", D [("operand_1", Sv "policyDefinition"); ("operand_2", Sv "name")])])]); ("resource_name_2", PNone)])])])])])])])]) = true.
Proof. vm_compute. reflexivity. Qed.

(** tests/examples/scope/resource_group/main.bicep *)
Example ex_scope_resource_group : agrees false
"// https://docs.microsoft.com/en-us/azure/azure-resource-manager/bicep/deploy-to-resource-group

targetScope = 'resourceGroup'

@description('principalId of the user that will be given contributor access to the resourceGroup')
param principalId string

@description('roleDefinition to apply to the resourceGroup - default is contributor')
param roleDefinitionId string

@description('Unique name for the roleAssignment in the format of a guid')
param roleAssignmentName string

resource dontDeleteLock 'Microsoft.Authorization/locks@2016-09-01' = {
  name: 'DontDelete'
  properties: {
    level: 'CanNotDelete'
    notes: 'Prevent deletion of the resourceGroup'
  }
}

resource roleAssignment 'Microsoft.Authorization/roleAssignments@2020-04-01-preview' = {
  name: roleAssignmentName
  properties: {
    roleDefinitionId: subscriptionResourceId('Microsoft.Authorization/roleDefinitions', roleDefinitionId)
    principalId: principalId
  }
}
"
  (D [("globals", D [("scope", D [("value", Sv "resourceGroup")])]); ("parameters", D [("principalId", D [("decorators", PList [D [("type", Sv "description"); ("argument", Sv "principalId of the user that will be given contributor access to the resourceGroup")]]); ("type", Sv "string"); ("default", PNone)]); ("roleDefinitionId", D [("decorators", PList [D [("type", Sv "description"); ("argument", Sv "roleDefinition to apply to the resourceGroup - default is contributor")]]); ("type", Sv "string"); ("default", PNone)]); ("roleAssignmentName", D [("decorators", PList [D [("type", Sv "description"); ("argument", Sv "Unique name for the roleAssignment in the format of a guid")]]); ("type", Sv "string"); ("default", PNone)])]); ("resources", D [("dontDeleteLock", D [("decorators", PList []); ("type", Sv "Microsoft.Authorization/locks"); ("api_version", Sv "2016-09-01"); ("existing", PBool false); ("config", D [("name", Sv "DontDelete"); ("properties", D [("level", Sv "CanNotDelete"); ("notes", Sv "Prevent deletion of the resourceGroup")])])]); ("roleAssignment", D [("decorators", PList []); ("type", Sv "Microsoft.Authorization/roleAssignments"); ("api_version", Sv "2020-04-01-preview"); ("existing", PBool false); ("config", D [("name", Sv "roleAssignmentName"); ("properties", D [("roleDefinitionId", D [("function", D [("type", Sv "subscription_resource_id"); ("parameters", D [("resource_type", Sv "Microsoft.Authorization/roleDefinitions"); ("resource_name_1", Sv "roleDefinitionId"); ("resource_name_2", PNone); ("subscription_id", PNone)])])]); ("principalId", Sv "principalId")])])])])]) = true.
Proof. vm_compute. reflexivity. Qed.

(** tests/examples/scope/subscription/main.bicep *)
Example ex_scope_subscription : agrees false
"// https://docs.microsoft.com/en-us/azure/azure-resource-manager/bicep/deploy-to-subscription

targetScope = 'subscription'

param principalId string
var roleName = 'Bicep Custom Role demo'

resource definition 'Microsoft.Authorization/roleDefinitions@2018-01-01-preview' = {
  name: guid(roleName)
  properties: {
    roleName: roleName
    description: 'Custom role create with bicep'
    permissions: [
      {
        actions: [
          '*/read'
        ]
      }
    ]
    assignableScopes: [
      subscription().id
    ]
  }
}

resource assignment 'Microsoft.Authorization/roleAssignments@2020-04-01-preview' = {
  name: guid(roleName, principalId, subscription().subscriptionId)
  properties: {
    roleDefinitionId: definition.id
    principalId: principalId
  }
}
"
  (D [("globals", D [("scope", D [("value", Sv "subscription")])]); ("parameters", D [("principalId", D [("decorators", PList []); ("type", Sv "string"); ("default", PNone)])]); ("variables", D [("roleName", D [("decorators", PList []); ("value", Sv "Bicep Custom Role demo")])]); ("resources", D [("definition", D [("decorators", PList []); ("type", Sv "Microsoft.Authorization/roleDefinitions"); ("api_version", Sv "2018-01-01-preview"); ("existing", PBool false); ("config", D [("name", D [("function", D [("type", Sv "guid"); ("parameters", D [("base_string", Sv "roleName")])])]); ("properties", D [("roleName", Sv "roleName"); ("description", Sv "Custom role create with bicep"); ("permissions", PList [D [("actions", PList [Sv "*/read"])]]); ("assignableScopes", PList [D [("operator", D [("type", Sv "property_accessor"); ("operands", D [("operand_1", D [("function", D [("type", Sv "subscription"); ("parameters", D [("subscription_id", PNone)])])]); ("operand_2", Sv "id")])])]])])])]); ("assignment", D [("decorators", PList []); ("type", Sv "Microsoft.Authorization/roleAssignments"); ("api_version", Sv "2020-04-01-preview"); ("existing", PBool false); ("config", D [("name", D [("function", D [("type", Sv "guid"); ("parameters", D [("base_string", Sv "roleName"); ("extra_string_1", Sv "principalId"); ("extra_string_2", D [("operator", D [("type", Sv "property_accessor"); ("operands", D [("operand_1", D [("function", D [("type", Sv "subscription"); ("parameters", D [("subscription_id", PNone)])])]); ("operand_2", Sv "subscriptionId")])])])])])]); ("properties", D [("roleDefinitionId", D [("operator", D [("type", Sv "property_accessor"); ("operands", D [("operand_1", Sv "definition"); ("operand_2", Sv "id")])])]); ("principalId", Sv "principalId")])])])])]) = true.
Proof. vm_compute. reflexivity. Qed.

(** tests/examples/scope/tenant/main.bicep *)
Example ex_scope_tenant : agrees false
"// https://docs.microsoft.com/en-us/azure/azure-resource-manager/bicep/deploy-to-tenant

targetScope = 'tenant'

param deploymentName string = 'managementGroups${utcNow()}'

module managementGroupGlobal './main.bicep' = {
  name: '${deploymentName}managementGroupGlobal'
  params: {
    managementGroupDisplayName: 'MyOrganisation'
    managementGroupId: 'gbl-org-mgp'
    subscriptionIds: []
  }
}

module managementGroupPlatform './main.bicep' = {
  name: '${deploymentName}managementGroupSandbox'
  params: {
    managementGroupDisplayName: 'Sandbox'
    managementGroupId: 'sbx-org-mgp'
    parentManagementGroupId: managementGroupGlobal.outputs.managementGroupID
    subscriptionIds: [
      '63c1651a-ec30-4f6c-a3ec-671e23063585'
    ]
  }
}
"
  (D [("globals", D [("scope", D [("value", Sv "tenant")])]); ("parameters", D [("deploymentName", D [("decorators", PList []); ("type", Sv "string"); ("default", Sv "managementGroups${utcNow()}")])]); ("modules", D [("managementGroupGlobal", D [("decorators", PList []); ("type", Sv "local"); ("detail", D [("full", Sv "./main.bicep"); ("path", Sv "./main.bicep")]); ("config", D [("name", Sv "${deploymentName}managementGroupGlobal"); ("params", D [("managementGroupDisplayName", Sv "MyOrganisation"); ("managementGroupId", Sv "gbl-org-mgp"); ("subscriptionIds", PList [])])])]); ("managementGroupPlatform", D [("decorators", PList []); ("type", Sv "local"); ("detail", D [("full", Sv "./main.bicep"); ("path", Sv "./main.bicep")]); ("config", D [("name", Sv "${deploymentName}managementGroupSandbox"); ("params", D [("managementGroupDisplayName", Sv "Sandbox"); ("managementGroupId", Sv "sbx-org-mgp"); ("parentManagementGroupId", D [("operator", D [("type", Sv "property_accessor"); ("operands", D [("operand_1", Sv "managementGroupGlobal"); ("operand_2", D [("operator", D [("type", Sv "property_accessor"); ("operands", D [("operand_1", Sv "outputs"); ("operand_2", Sv "managementGroupID")])])])])])]); ("subscriptionIds", PList [Sv "63c1651a-ec30-4f6c-a3ec-671e23063585"])])])])])]) = true.
Proof. vm_compute. reflexivity. Qed.

(** tests/test_function/examples/any/any/main.bicep *)
Example ex_test_function_any_any : agrees false
"// https://docs.microsoft.com/en-us/azure/azure-resource-manager/bicep/bicep-functions-any#any

// param
param paramStr string = any(true)

// var
var cpuCores = any('0.5')

// resource
resource identityProvider 'Microsoft.ApiManagement/service/identityProviders@2020-06-01-preview' = {
  name: any('${apiManagementService.name}/google')
  properties: {
    clientId: 'googleClientId'
    clientSecret: googleClientSecret
  }
  dependsOn: [
    apiManagementService
  ]
}

// output
output ftpUser string = any(site.properties)

// namespace sys
output namespace string = sys.any(site.properties)
"
  (D [("globals", D [("scope", D [("value", Sv "resourceGroup")])]); ("parameters", D [("paramStr", D [("decorators", PList []); ("type", Sv "string"); ("default", D [("function", D [("type", Sv "any"); ("parameters", D [("value", PBool true)])])])])]); ("variables", D [("cpuCores", D [("decorators", PList []); ("value", D [("function", D [("type", Sv "any"); ("parameters", D [("value", Sv "0.5")])])])])]); ("resources", D [("identityProvider", D [("decorators", PList []); ("type", Sv "Microsoft.ApiManagement/service/identityProviders"); ("api_version", Sv "2020-06-01-preview"); ("existing", PBool false); ("config", D [("name", D [("function", D [("type", Sv "any"); ("parameters", D [("value", Sv "${apiManagementService.name}/google")])])]); ("properties", D [("clientId", Sv "googleClientId"); ("clientSecret", Sv "googleClientSecret")]); ("dependsOn", PList [Sv "apiManagementService"])])])]); ("outputs", D [("ftpUser", D [("decorators", PList []); ("type", Sv "string"); ("value", D [("function", D [("type", Sv "any"); ("parameters", D [("value", D [("operator", D [("type", Sv "property_accessor"); ("operands", D [("operand_1", Sv "site"); ("operand_2", Sv "properties")])])])])])])]); ("namespace", D [("decorators", PList []); ("type", Sv "string"); ("value", D [("function", D [("type", Sv "any"); ("parameters", D [("value", D [("operator", D [("type", Sv "property_accessor"); ("operands", D [("operand_1", Sv "site"); ("operand_2", Sv "properties")])])])])])])])])]) = true.
Proof. vm_compute. reflexivity. Qed.

(** tests/test_function/examples/array/array/main.bicep *)
Example ex_test_function_array_array : agrees false
"// https://docs.microsoft.com/en-us/azure/azure-resource-manager/bicep/bicep-functions-array

// param
param paramStr array = array('')

// var
var cpuCores = array(5)

// resource
resource identityProvider 'Microsoft.ApiManagement/service/identityProviders@2020-06-01-preview' = {
  name: array('${apiManagementService.name}/google')
  properties: {
    clientId: 'googleClientId'
    clientSecret: array
  }
  dependsOn: [
    apiManagementService
  ]
}

// output
output ftpUser array = array(site.properties)

// namespace sys
output namespace array = sys.array(site)
"
  (D [("globals", D [("scope", D [("value", Sv "resourceGroup")])]); ("parameters", D [("paramStr", D [("decorators", PList []); ("type", Sv "array"); ("default", D [("function", D [("type", Sv "array"); ("parameters", D [("convert_to_array", Sv "")])])])])]); ("variables", D [("cpuCores", D [("decorators", PList []); ("value", D [("function", D [("type", Sv "array"); ("parameters", D [("convert_to_array", PInt (5))])])])])]); ("resources", D [("identityProvider", D [("decorators", PList []); ("type", Sv "Microsoft.ApiManagement/service/identityProviders"); ("api_version", Sv "2020-06-01-preview"); ("existing", PBool false); ("config", D [("name", D [("function", D [("type", Sv "array"); ("parameters", D [("convert_to_array", Sv "${apiManagementService.name}/google")])])]); ("properties", D [("clientId", Sv "googleClientId"); ("clientSecret", Sv "array")]); ("dependsOn", PList [Sv "apiManagementService"])])])]); ("outputs", D [("ftpUser", D [("decorators", PList []); ("type", Sv "array"); ("value", D [("function", D [("type", Sv "array"); ("parameters", D [("convert_to_array", D [("operator", D [("type", Sv "property_accessor"); ("operands", D [("operand_1", Sv "site"); ("operand_2", Sv "properties")])])])])])])]); ("namespace", D [("decorators", PList []); ("type", Sv "array"); ("value", D [("function", D [("type", Sv "array"); ("parameters", D [("convert_to_array", Sv "site")])])])])])]) = true.
Proof. vm_compute. reflexivity. Qed.

(** tests/test_function/examples/array/concat/main.bicep *)
Example ex_test_function_array_concat : agrees false
"// https://docs.microsoft.com/en-us/azure/azure-resource-manager/bicep/bicep-functions-array#concat

// param
param paramStr array = concat(firstArray, secondArray)

// var
var cpuCores = concat(firstArray, secondArray)

// resource
resource identityProvider 'Microsoft.ApiManagement/service/identityProviders@2020-06-01-preview' = {
  name: 'exmple'
  properties: concat(firstArray)
  dependsOn: [
    apiManagementService
  ]
}

// output
output ftpUser object = concat(firstArray, secondArray, thirdArray)

// namespace sys
output namespace array = sys.concat(firstArray, secondArray)
"
  (D [("globals", D [("scope", D [("value", Sv "resourceGroup")])]); ("parameters", D [("paramStr", D [("decorators", PList []); ("type", Sv "array"); ("default", D [("function", D [("type", Sv "concat"); ("parameters", D [("arg_1", Sv "firstArray"); ("arg_2", Sv "secondArray")])])])])]); ("variables", D [("cpuCores", D [("decorators", PList []); ("value", D [("function", D [("type", Sv "concat"); ("parameters", D [("arg_1", Sv "firstArray"); ("arg_2", Sv "secondArray")])])])])]); ("resources", D [("identityProvider", D [("decorators", PList []); ("type", Sv "Microsoft.ApiManagement/service/identityProviders"); ("api_version", Sv "2020-06-01-preview"); ("existing", PBool false); ("config", D [("name", Sv "exmple"); ("properties", D [("function", D [("type", Sv "concat"); ("parameters", D [("arg_1", Sv "firstArray")])])]); ("dependsOn", PList [Sv "apiManagementService"])])])]); ("outputs", D [("ftpUser", D [("decorators", PList []); ("type", Sv "object"); ("value", D [("function", D [("type", Sv "concat"); ("parameters", D [("arg_1", Sv "firstArray"); ("arg_2", Sv "secondArray"); ("arg_3", Sv "thirdArray")])])])]); ("namespace", D [("decorators", PList []); ("type", Sv "array"); ("value", D [("function", D [("type", Sv "concat"); ("parameters", D [("arg_1", Sv "firstArray"); ("arg_2", Sv "secondArray")])])])])])]) = true.
Proof. vm_compute. reflexivity. Qed.

(** tests/test_function/examples/array/contains/main.bicep *)
Example ex_test_function_array_contains : agrees false
"// https://docs.microsoft.com/en-us/azure/azure-resource-manager/bicep/bicep-functions-array#contains

// param
param paramStr bool = contains(firstArray, stringValue)

// var
var varstr = contains(firstArray, intValue)

// resource
resource identityProvider 'Microsoft.ApiManagement/service/identityProviders@2020-06-01-preview' = {
  name: 'exmple'
  properties: contains(firstObject.names, name)
  dependsOn: [
    apiManagementService
  ]
}

// output
output ftpUser bool = contains(firstObject, 'some')

// namespace sys
output namespace bool = sys.contains(firstArray, 1)
"
  (D [("globals", D [("scope", D [("value", Sv "resourceGroup")])]); ("parameters", D [("paramStr", D [("decorators", PList []); ("type", Sv "bool"); ("default", D [("function", D [("type", Sv "contains"); ("parameters", D [("container", Sv "firstArray"); ("item_to_find", Sv "stringValue")])])])])]); ("variables", D [("varstr", D [("decorators", PList []); ("value", D [("function", D [("type", Sv "contains"); ("parameters", D [("container", Sv "firstArray"); ("item_to_find", Sv "intValue")])])])])]); ("resources", D [("identityProvider", D [("decorators", PList []); ("type", Sv "Microsoft.ApiManagement/service/identityProviders"); ("api_version", Sv "2020-06-01-preview"); ("existing", PBool false); ("config", D [("name", Sv "exmple"); ("properties", D [("function", D [("type", Sv "contains"); ("parameters", D [("container", D [("operator", D [("type", Sv "property_accessor"); ("operands", D [("operand_1", Sv "firstObject"); ("operand_2", Sv "names")])])]); ("item_to_find", Sv "name")])])]); ("dependsOn", PList [Sv "apiManagementService"])])])]); ("outputs", D [("ftpUser", D [("decorators", PList []); ("type", Sv "bool"); ("value", D [("function", D [("type", Sv "contains"); ("parameters", D [("container", Sv "firstObject"); ("item_to_find", Sv "some")])])])]); ("namespace", D [("decorators", PList []); ("type", Sv "bool"); ("value", D [("function", D [("type", Sv "contains"); ("parameters", D [("container", Sv "firstArray"); ("item_to_find", PInt (1))])])])])])]) = true.
Proof. vm_compute. reflexivity. Qed.

(** tests/test_function/examples/array/empty/main.bicep *)
Example ex_test_function_array_empty : agrees false
"// https://docs.microsoft.com/en-us/azure/azure-resource-manager/bicep/bicep-functions-array#empty

// param
param paramStr string = empty('')

// var
var cpuCores = empty('0.5')

// resource
resource identityProvider 'Microsoft.ApiManagement/service/identityProviders@2020-06-01-preview' = {
  name: empty('${apiManagementService.name}/google')
  properties: {
    clientId: 'googleClientId'
    clientSecret: googleClientSecret
  }
  dependsOn: [
    apiManagementService
  ]
}

// output
output ftpUser string = empty(site.properties)

// namespace sys
output namespace string = sys.empty(site)
"
  (D [("globals", D [("scope", D [("value", Sv "resourceGroup")])]); ("parameters", D [("paramStr", D [("decorators", PList []); ("type", Sv "string"); ("default", D [("function", D [("type", Sv "empty"); ("parameters", D [("item_to_test", Sv "")])])])])]); ("variables", D [("cpuCores", D [("decorators", PList []); ("value", D [("function", D [("type", Sv "empty"); ("parameters", D [("item_to_test", Sv "0.5")])])])])]); ("resources", D [("identityProvider", D [("decorators", PList []); ("type", Sv "Microsoft.ApiManagement/service/identityProviders"); ("api_version", Sv "2020-06-01-preview"); ("existing", PBool false); ("config", D [("name", D [("function", D [("type", Sv "empty"); ("parameters", D [("item_to_test", Sv "${apiManagementService.name}/google")])])]); ("properties", D [("clientId", Sv "googleClientId"); ("clientSecret", Sv "googleClientSecret")]); ("dependsOn", PList [Sv "apiManagementService"])])])]); ("outputs", D [("ftpUser", D [("decorators", PList []); ("type", Sv "string"); ("value", D [("function", D [("type", Sv "empty"); ("parameters", D [("item_to_test", D [("operator", D [("type", Sv "property_accessor"); ("operands", D [("operand_1", Sv "site"); ("operand_2", Sv "properties")])])])])])])]); ("namespace", D [("decorators", PList []); ("type", Sv "string"); ("value", D [("function", D [("type", Sv "empty"); ("parameters", D [("item_to_test", Sv "site")])])])])])]) = true.
Proof. vm_compute. reflexivity. Qed.

(** tests/test_function/examples/array/first/main.bicep *)
Example ex_test_function_array_first : agrees false
"// https://docs.microsoft.com/en-us/azure/azure-resource-manager/bicep/bicep-functions-array#first

// param
param paramStr string = first('one,two,three')

// var
var varStr = first(administratorAccountUsername)

// resource
resource assignment 'Microsoft.Authorization/roleAssignments@2020-04-01-preview' = {
  name: first(roleName).name
  properties: {
    roleDefinitionId: definition.id
    principalId: principalId
  }
}

// output
output ftpUser string = first(site.properties)

// namespace sys
output namespace string = sys.first(site.properties)
"
  (D [("globals", D [("scope", D [("value", Sv "resourceGroup")])]); ("parameters", D [("paramStr", D [("decorators", PList []); ("type", Sv "string"); ("default", D [("function", D [("type", Sv "first"); ("parameters", D [("arg_1", Sv "one,two,three")])])])])]); ("variables", D [("varStr", D [("decorators", PList []); ("value", D [("function", D [("type", Sv "first"); ("parameters", D [("arg_1", Sv "administratorAccountUsername")])])])])]); ("resources", D [("assignment", D [("decorators", PList []); ("type", Sv "Microsoft.Authorization/roleAssignments"); ("api_version", Sv "2020-04-01-preview"); ("existing", PBool false); ("config", D [("name", D [("operator", D [("type", Sv "property_accessor"); ("operands", D [("operand_1", D [("function", D [("type", Sv "first"); ("parameters", D [("arg_1", Sv "roleName")])])]); ("operand_2", Sv "name")])])]); ("properties", D [("roleDefinitionId", D [("operator", D [("type", Sv "property_accessor"); ("operands", D [("operand_1", Sv "definition"); ("operand_2", Sv "id")])])]); ("principalId", Sv "principalId")])])])]); ("outputs", D [("ftpUser", D [("decorators", PList []); ("type", Sv "string"); ("value", D [("function", D [("type", Sv "first"); ("parameters", D [("arg_1", D [("operator", D [("type", Sv "property_accessor"); ("operands", D [("operand_1", Sv "site"); ("operand_2", Sv "properties")])])])])])])]); ("namespace", D [("decorators", PList []); ("type", Sv "string"); ("value", D [("function", D [("type", Sv "first"); ("parameters", D [("arg_1", D [("operator", D [("type", Sv "property_accessor"); ("operands", D [("operand_1", Sv "site"); ("operand_2", Sv "properties")])])])])])])])])]) = true.
Proof. vm_compute. reflexivity. Qed.

(** tests/test_function/examples/array/flatten/main.bicep *)
Example ex_test_function_array_flatten : agrees false
"// https://learn.microsoft.com/en-us/azure/azure-resource-manager/bicep/bicep-functions-array#flatten

// param
param paramStr string = flatten(['one', 'two'])

// var
var varStr = flatten(administratorAccountUsername)

// resource
resource assignment 'Microsoft.Authorization/roleAssignments@2020-04-01-preview' = {
  name: flatten(roleName).name
  properties: {
    roleDefinitionId: definition.id
    principalId: principalId
  }
}

// output
output ftpUser string = flatten(site.properties)

// namespace sys
output namespace string = sys.flatten(site.properties)
"
  (D [("globals", D [("scope", D [("value", Sv "resourceGroup")])]); ("parameters", D [("paramStr", D [("decorators", PList []); ("type", Sv "string"); ("default", D [("function", D [("type", Sv "flatten"); ("parameters", D [("array_to_flattern", PList [Sv "one"; Sv "two"])])])])])]); ("variables", D [("varStr", D [("decorators", PList []); ("value", D [("function", D [("type", Sv "flatten"); ("parameters", D [("array_to_flattern", Sv "administratorAccountUsername")])])])])]); ("resources", D [("assignment", D [("decorators", PList []); ("type", Sv "Microsoft.Authorization/roleAssignments"); ("api_version", Sv "2020-04-01-preview"); ("existing", PBool false); ("config", D [("name", D [("operator", D [("type", Sv "property_accessor"); ("operands", D [("operand_1", D [("function", D [("type", Sv "flatten"); ("parameters", D [("array_to_flattern", Sv "roleName")])])]); ("operand_2", Sv "name")])])]); ("properties", D [("roleDefinitionId", D [("operator", D [("type", Sv "property_accessor"); ("operands", D [("operand_1", Sv "definition"); ("operand_2", Sv "id")])])]); ("principalId", Sv "principalId")])])])]); ("outputs", D [("ftpUser", D [("decorators", PList []); ("type", Sv "string"); ("value", D [("function", D [("type", Sv "flatten"); ("parameters", D [("array_to_flattern", D [("operator", D [("type", Sv "property_accessor"); ("operands", D [("operand_1", Sv "site"); ("operand_2", Sv "properties")])])])])])])]); ("namespace", D [("decorators", PList []); ("type", Sv "string"); ("value", D [("function", D [("type", Sv "flatten"); ("parameters", D [("array_to_flattern", D [("operator", D [("type", Sv "property_accessor"); ("operands", D [("operand_1", Sv "site"); ("operand_2", Sv "properties")])])])])])])])])]) = true.
Proof. vm_compute. reflexivity. Qed.

(** tests/test_function/examples/array/intersection/main.bicep *)
Example ex_test_function_array_intersection : agrees false
"// https://docs.microsoft.com/en-us/azure/azure-resource-manager/bicep/bicep-functions-array#intersection

// param
param paramStr array = intersection(firstArray, secondArray)

// var
var cpuCores = intersection(firstArray, secondArray)

// resource
resource identityProvider 'Microsoft.ApiManagement/service/identityProviders@2020-06-01-preview' = {
  name: 'exmple'
  properties: intersection(firstObject, secondObject).tags
  dependsOn: [
    apiManagementService
  ]
}

// output
output ftpUser object = intersection(firstObject, secondObject, thirdObject)

// namespace sys
output namespace array = sys.intersection(firstArray, secondArray)
"
  (D [("globals", D [("scope", D [("value", Sv "resourceGroup")])]); ("parameters", D [("paramStr", D [("decorators", PList []); ("type", Sv "array"); ("default", D [("function", D [("type", Sv "intersection"); ("parameters", D [("arg_1", Sv "firstArray"); ("arg_2", Sv "secondArray")])])])])]); ("variables", D [("cpuCores", D [("decorators", PList []); ("value", D [("function", D [("type", Sv "intersection"); ("parameters", D [("arg_1", Sv "firstArray"); ("arg_2", Sv "secondArray")])])])])]); ("resources", D [("identityProvider", D [("decorators", PList []); ("type", Sv "Microsoft.ApiManagement/service/identityProviders"); ("api_version", Sv "2020-06-01-preview"); ("existing", PBool false); ("config", D [("name", Sv "exmple"); ("properties", D [("operator", D [("type", Sv "property_accessor"); ("operands", D [("operand_1", D [("function", D [("type", Sv "intersection"); ("parameters", D [("arg_1", Sv "firstObject"); ("arg_2", Sv "secondObject")])])]); ("operand_2", Sv "tags")])])]); ("dependsOn", PList [Sv "apiManagementService"])])])]); ("outputs", D [("ftpUser", D [("decorators", PList []); ("type", Sv "object"); ("value", D [("function", D [("type", Sv "intersection"); ("parameters", D [("arg_1", Sv "firstObject"); ("arg_2", Sv "secondObject"); ("arg_3", Sv "thirdObject")])])])]); ("namespace", D [("decorators", PList []); ("type", Sv "array"); ("value", D [("function", D [("type", Sv "intersection"); ("parameters", D [("arg_1", Sv "firstArray"); ("arg_2", Sv "secondArray")])])])])])]) = true.
Proof. vm_compute. reflexivity. Qed.

(** tests/test_function/examples/array/last/main.bicep *)
Example ex_test_function_array_last : agrees false
"// https://docs.microsoft.com/en-us/azure/azure-resource-manager/bicep/bicep-functions-array#last

// param
param paramStr string = last('one,two,three')

// var
var varStr = last(administratorAccountUsername)

// resource
resource assignment 'Microsoft.Authorization/roleAssignments@2020-04-01-preview' = {
  name: last(roleName).name
  properties: {
    roleDefinitionId: definition.id
    principalId: principalId
  }
}

// output
output ftpUser string = last(site.properties)

// namespace sys
output namespace string = sys.last(site.properties)
"
  (D [("globals", D [("scope", D [("value", Sv "resourceGroup")])]); ("parameters", D [("paramStr", D [("decorators", PList []); ("type", Sv "string"); ("default", D [("function", D [("type", Sv "last"); ("parameters", D [("arg_1", Sv "one,two,three")])])])])]); ("variables", D [("varStr", D [("decorators", PList []); ("value", D [("function", D [("type", Sv "last"); ("parameters", D [("arg_1", Sv "administratorAccountUsername")])])])])]); ("resources", D [("assignment", D [("decorators", PList []); ("type", Sv "Microsoft.Authorization/roleAssignments"); ("api_version", Sv "2020-04-01-preview"); ("existing", PBool false); ("config", D [("name", D [("operator", D [("type", Sv "property_accessor"); ("operands", D [("operand_1", D [("function", D [("type", Sv "last"); ("parameters", D [("arg_1", Sv "roleName")])])]); ("operand_2", Sv "name")])])]); ("properties", D [("roleDefinitionId", D [("operator", D [("type", Sv "property_accessor"); ("operands", D [("operand_1", Sv "definition"); ("operand_2", Sv "id")])])]); ("principalId", Sv "principalId")])])])]); ("outputs", D [("ftpUser", D [("decorators", PList []); ("type", Sv "string"); ("value", D [("function", D [("type", Sv "last"); ("parameters", D [("arg_1", D [("operator", D [("type", Sv "property_accessor"); ("operands", D [("operand_1", Sv "site"); ("operand_2", Sv "properties")])])])])])])]); ("namespace", D [("decorators", PList []); ("type", Sv "string"); ("value", D [("function", D [("type", Sv "last"); ("parameters", D [("arg_1", D [("operator", D [("type", Sv "property_accessor"); ("operands", D [("operand_1", Sv "site"); ("operand_2", Sv "properties")])])])])])])])])]) = true.
Proof. vm_compute. reflexivity. Qed.

(** tests/test_function/examples/array/length/main.bicep *)
Example ex_test_function_array_length : agrees false
"// https://docs.microsoft.com/en-us/azure/azure-resource-manager/bicep/bicep-functions-array#length

// param
param paramStr int = length('one,two,three')

// var
var varStr = length(administratorAccountUsername)

// resource
resource assignment 'Microsoft.Authorization/roleAssignments@2020-04-01-preview' = {
  name: length(roleName)
  properties: {
    roleDefinitionId: definition.id
    principalId: length
  }
}

// output
output ftpUser int = length(site.properties)

// namespace sys
output namespace int = sys.length(site.properties)
"
  (D [("globals", D [("scope", D [("value", Sv "resourceGroup")])]); ("parameters", D [("paramStr", D [("decorators", PList []); ("type", Sv "int"); ("default", D [("function", D [("type", Sv "length"); ("parameters", D [("arg_1", Sv "one,two,three")])])])])]); ("variables", D [("varStr", D [("decorators", PList []); ("value", D [("function", D [("type", Sv "length"); ("parameters", D [("arg_1", Sv "administratorAccountUsername")])])])])]); ("resources", D [("assignment", D [("decorators", PList []); ("type", Sv "Microsoft.Authorization/roleAssignments"); ("api_version", Sv "2020-04-01-preview"); ("existing", PBool false); ("config", D [("name", D [("function", D [("type", Sv "length"); ("parameters", D [("arg_1", Sv "roleName")])])]); ("properties", D [("roleDefinitionId", D [("operator", D [("type", Sv "property_accessor"); ("operands", D [("operand_1", Sv "definition"); ("operand_2", Sv "id")])])]); ("principalId", Sv "length")])])])]); ("outputs", D [("ftpUser", D [("decorators", PList []); ("type", Sv "int"); ("value", D [("function", D [("type", Sv "length"); ("parameters", D [("arg_1", D [("operator", D [("type", Sv "property_accessor"); ("operands", D [("operand_1", Sv "site"); ("operand_2", Sv "properties")])])])])])])]); ("namespace", D [("decorators", PList []); ("type", Sv "int"); ("value", D [("function", D [("type", Sv "length"); ("parameters", D [("arg_1", D [("operator", D [("type", Sv "property_accessor"); ("operands", D [("operand_1", Sv "site"); ("operand_2", Sv "properties")])])])])])])])])]) = true.
Proof. vm_compute. reflexivity. Qed.

(** tests/test_function/examples/array/max/main.bicep *)
Example ex_test_function_array_max : agrees false
"// https://docs.microsoft.com/en-us/azure/azure-resource-manager/bicep/bicep-functions-array#max

// param
param paramStr int = max(firstArray, secondArray)

// var
var cpuCores = max(1, 2, 3, 4)

// resource
resource identityProvider 'Microsoft.ApiManagement/service/identityProviders@2020-06-01-preview' = {
  name: 'exmple'
  properties: max(firstArray)
  dependsOn: [
    max
  ]
}

// output
output ftpUser int = max(firstArray, secondArray, thirdArray)

// namespace
output namespace int = sys.max(firstArray, secondArray)
"
  (D [("globals", D [("scope", D [("value", Sv "resourceGroup")])]); ("parameters", D [("paramStr", D [("decorators", PList []); ("type", Sv "int"); ("default", D [("function", D [("type", Sv "max"); ("parameters", D [("arg_1", Sv "firstArray"); ("arg_2", Sv "secondArray")])])])])]); ("variables", D [("cpuCores", D [("decorators", PList []); ("value", D [("function", D [("type", Sv "max"); ("parameters", D [("arg_1", PInt (1)); ("arg_2", PInt (2)); ("arg_3", PInt (3)); ("arg_4", PInt (4))])])])])]); ("resources", D [("identityProvider", D [("decorators", PList []); ("type", Sv "Microsoft.ApiManagement/service/identityProviders"); ("api_version", Sv "2020-06-01-preview"); ("existing", PBool false); ("config", D [("name", Sv "exmple"); ("properties", D [("function", D [("type", Sv "max"); ("parameters", D [("arg_1", Sv "firstArray")])])]); ("dependsOn", PList [Sv "max"])])])]); ("outputs", D [("ftpUser", D [("decorators", PList []); ("type", Sv "int"); ("value", D [("function", D [("type", Sv "max"); ("parameters", D [("arg_1", Sv "firstArray"); ("arg_2", Sv "secondArray"); ("arg_3", Sv "thirdArray")])])])]); ("namespace", D [("decorators", PList []); ("type", Sv "int"); ("value", D [("function", D [("type", Sv "max"); ("parameters", D [("arg_1", Sv "firstArray"); ("arg_2", Sv "secondArray")])])])])])]) = true.
Proof. vm_compute. reflexivity. Qed.

(** tests/test_function/examples/array/min/main.bicep *)
Example ex_test_function_array_min : agrees false
"// https://docs.microsoft.com/en-us/azure/azure-resource-manager/bicep/bicep-functions-array#min

// param
param paramStr int = min(firstArray, secondArray)

// var
var cpuCores = min(1, 2, 3, 4)

// resource
resource identityProvider 'Microsoft.ApiManagement/service/identityProviders@2020-06-01-preview' = {
  name: 'exmple'
  properties: min(firstArray)
  dependsOn: [
    min
  ]
}

// output
output ftpUser int = min(firstArray, secondArray, thirdArray)

// namespace
output namespace int = sys.min(firstArray, secondArray)
"
  (D [("globals", D [("scope", D [("value", Sv "resourceGroup")])]); ("parameters", D [("paramStr", D [("decorators", PList []); ("type", Sv "int"); ("default", D [("function", D [("type", Sv "min"); ("parameters", D [("arg_1", Sv "firstArray"); ("arg_2", Sv "secondArray")])])])])]); ("variables", D [("cpuCores", D [("decorators", PList []); ("value", D [("function", D [("type", Sv "min"); ("parameters", D [("arg_1", PInt (1)); ("arg_2", PInt (2)); ("arg_3", PInt (3)); ("arg_4", PInt (4))])])])])]); ("resources", D [("identityProvider", D [("decorators", PList []); ("type", Sv "Microsoft.ApiManagement/service/identityProviders"); ("api_version", Sv "2020-06-01-preview"); ("existing", PBool false); ("config", D [("name", Sv "exmple"); ("properties", D [("function", D [("type", Sv "min"); ("parameters", D [("arg_1", Sv "firstArray")])])]); ("dependsOn", PList [Sv "min"])])])]); ("outputs", D [("ftpUser", D [("decorators", PList []); ("type", Sv "int"); ("value", D [("function", D [("type", Sv "min"); ("parameters", D [("arg_1", Sv "firstArray"); ("arg_2", Sv "secondArray"); ("arg_3", Sv "thirdArray")])])])]); ("namespace", D [("decorators", PList []); ("type", Sv "int"); ("value", D [("function", D [("type", Sv "min"); ("parameters", D [("arg_1", Sv "firstArray"); ("arg_2", Sv "secondArray")])])])])])]) = true.
Proof. vm_compute. reflexivity. Qed.

(** tests/test_function/examples/array/skip/main.bicep *)
Example ex_test_function_array_skip : agrees false
"// https://docs.microsoft.com/en-us/azure/azure-resource-manager/bicep/bicep-functions-array#skip

// param
param paramStr array = skip(firstArray, number)

// var
var varstr = skip('some text', 3)

// resource
resource identityProvider 'Microsoft.ApiManagement/service/identityProviders@2020-06-01-preview' = {
  name: 'exmple'
  properties: skip(firstObject.names, name)
  dependsOn: [
    apiManagementService
  ]
}

// output
output ftpUser string = skip(value, 2)

// namespace sys
output namespace string = sys.skip(value, 2)
"
  (D [("globals", D [("scope", D [("value", Sv "resourceGroup")])]); ("parameters", D [("paramStr", D [("decorators", PList []); ("type", Sv "array"); ("default", D [("function", D [("type", Sv "skip"); ("parameters", D [("original_value", Sv "firstArray"); ("number_to_skip", Sv "number")])])])])]); ("variables", D [("varstr", D [("decorators", PList []); ("value", D [("function", D [("type", Sv "skip"); ("parameters", D [("original_value", Sv "some text"); ("number_to_skip", PInt (3))])])])])]); ("resources", D [("identityProvider", D [("decorators", PList []); ("type", Sv "Microsoft.ApiManagement/service/identityProviders"); ("api_version", Sv "2020-06-01-preview"); ("existing", PBool false); ("config", D [("name", Sv "exmple"); ("properties", D [("function", D [("type", Sv "skip"); ("parameters", D [("original_value", D [("operator", D [("type", Sv "property_accessor"); ("operands", D [("operand_1", Sv "firstObject"); ("operand_2", Sv "names")])])]); ("number_to_skip", Sv "name")])])]); ("dependsOn", PList [Sv "apiManagementService"])])])]); ("outputs", D [("ftpUser", D [("decorators", PList []); ("type", Sv "string"); ("value", D [("function", D [("type", Sv "skip"); ("parameters", D [("original_value", Sv "value"); ("number_to_skip", PInt (2))])])])]); ("namespace", D [("decorators", PList []); ("type", Sv "string"); ("value", D [("function", D [("type", Sv "skip"); ("parameters", D [("original_value", Sv "value"); ("number_to_skip", PInt (2))])])])])])]) = true.
Proof. vm_compute. reflexivity. Qed.

(** tests/test_function/examples/array/take/main.bicep *)
Example ex_test_function_array_take : agrees false
"// https://docs.microsoft.com/en-us/azure/azure-resource-manager/bicep/bicep-functions-array#take

// param
param paramStr string = take('something', 4)

// var
var varstr = take(firstArray, intValue)

// resource
resource identityProvider 'Microsoft.ApiManagement/service/identityProviders@2020-06-01-preview' = {
  name: 'exmple'
  properties: take(firstObject.names, name)
  dependsOn: [
    apiManagementService
  ]
}

// output
output ftpUser array = take(firstArray, 2)

// namespace sys
output namespace array = sys.take(firstArray, 1)
"
  (D [("globals", D [("scope", D [("value", Sv "resourceGroup")])]); ("parameters", D [("paramStr", D [("decorators", PList []); ("type", Sv "string"); ("default", D [("function", D [("type", Sv "take"); ("parameters", D [("original_value", Sv "something"); ("number_to_take", PInt (4))])])])])]); ("variables", D [("varstr", D [("decorators", PList []); ("value", D [("function", D [("type", Sv "take"); ("parameters", D [("original_value", Sv "firstArray"); ("number_to_take", Sv "intValue")])])])])]); ("resources", D [("identityProvider", D [("decorators", PList []); ("type", Sv "Microsoft.ApiManagement/service/identityProviders"); ("api_version", Sv "2020-06-01-preview"); ("existing", PBool false); ("config", D [("name", Sv "exmple"); ("properties", D [("function", D [("type", Sv "take"); ("parameters", D [("original_value", D [("operator", D [("type", Sv "property_accessor"); ("operands", D [("operand_1", Sv "firstObject"); ("operand_2", Sv "names")])])]); ("number_to_take", Sv "name")])])]); ("dependsOn", PList [Sv "apiManagementService"])])])]); ("outputs", D [("ftpUser", D [("decorators", PList []); ("type", Sv "array"); ("value", D [("function", D [("type", Sv "take"); ("parameters", D [("original_value", Sv "firstArray"); ("number_to_take", PInt (2))])])])]); ("namespace", D [("decorators", PList []); ("type", Sv "array"); ("value", D [("function", D [("type", Sv "take"); ("parameters", D [("original_value", Sv "firstArray"); ("number_to_take", PInt (1))])])])])])]) = true.
Proof. vm_compute. reflexivity. Qed.

(** tests/test_function/examples/array/union/main.bicep *)
Example ex_test_function_array_union : agrees false
"// https://docs.microsoft.com/en-us/azure/azure-resource-manager/bicep/bicep-functions-array#union

// param
param paramStr array = union(firstArray, secondArray)

// var
var cpuCores = union(firstArray, secondArray)

// resource
resource identityProvider 'Microsoft.ApiManagement/service/identityProviders@2020-06-01-preview' = {
  name: 'exmple'
  properties: union(firstObject, secondObject).tags
  dependsOn: [
    apiManagementService
  ]
}

resource applicationGateway 'Microsoft.Network/applicationGateways@2023-04-01' = {
  name: name
  properties: union({
      urlPathMaps: urlPathMaps
    }, (enableFips ? {
      enableFips: enableFips
    } : {}),
    (!empty(wafc) ? { webApplicationFirewallConfiguration: wafc } : {})
  )
  zones: zones
}

// output
output ftpUser object = union(firstObject, secondObject, thirdObject)

// namespace sys
output namespace array = sys.union(firstArray, secondArray)
"
  (D [("globals", D [("scope", D [("value", Sv "resourceGroup")])]); ("parameters", D [("paramStr", D [("decorators", PList []); ("type", Sv "array"); ("default", D [("function", D [("type", Sv "union"); ("parameters", D [("arg_1", Sv "firstArray"); ("arg_2", Sv "secondArray")])])])])]); ("variables", D [("cpuCores", D [("decorators", PList []); ("value", D [("function", D [("type", Sv "union"); ("parameters", D [("arg_1", Sv "firstArray"); ("arg_2", Sv "secondArray")])])])])]); ("resources", D [("identityProvider", D [("decorators", PList []); ("type", Sv "Microsoft.ApiManagement/service/identityProviders"); ("api_version", Sv "2020-06-01-preview"); ("existing", PBool false); ("config", D [("name", Sv "exmple"); ("properties", D [("operator", D [("type", Sv "property_accessor"); ("operands", D [("operand_1", D [("function", D [("type", Sv "union"); ("parameters", D [("arg_1", Sv "firstObject"); ("arg_2", Sv "secondObject")])])]); ("operand_2", Sv "tags")])])]); ("dependsOn", PList [Sv "apiManagementService"])])]); ("applicationGateway", D [("decorators", PList []); ("type", Sv "Microsoft.Network/applicationGateways"); ("api_version", Sv "2023-04-01"); ("existing", PBool false); ("config", D [("name", Sv "name"); ("properties", D [("function", D [("type", Sv "union"); ("parameters", D [("arg_1", D [("urlPathMaps", Sv "urlPathMaps")]); ("arg_2", D [("operator", D [("type", Sv "conditional"); ("operands", D [("condition", Sv "enableFips"); ("true_value", D [("enableFips", Sv "enableFips")]); ("false_value", D [])])])]); ("arg_3", D [("operator", D [("type", Sv "not"); ("operands", D [("bool_value", D [("operator", D [("type", Sv "conditional"); ("operands", D [("condition", D [("function", D [("type", Sv "empty"); ("parameters", D [("item_to_test", Sv "wafc")])])]); ("true_value", D [("webApplicationFirewallConfiguration", Sv "wafc")]); ("false_value", D [])])])])])])])])])]); ("zones", Sv "zones")])])]); ("outputs", D [("ftpUser", D [("decorators", PList []); ("type", Sv "object"); ("value", D [("function", D [("type", Sv "union"); ("parameters", D [("arg_1", Sv "firstObject"); ("arg_2", Sv "secondObject"); ("arg_3", Sv "thirdObject")])])])]); ("namespace", D [("decorators", PList []); ("type", Sv "array"); ("value", D [("function", D [("type", Sv "union"); ("parameters", D [("arg_1", Sv "firstArray"); ("arg_2", Sv "secondArray")])])])])])]) = true.
Proof. vm_compute. reflexivity. Qed.

(** tests/test_function/examples/date/date_time_add/main.bicep *)
Example ex_test_function_date_date_time_add : agrees false
"// https://docs.microsoft.com/en-us/azure/azure-resource-manager/bicep/bicep-functions-date#datetimeadd

// param
param paramStr string = dateTimeAdd('2020-04-07 14:53:14Z', 'P3Y')

// var
var cpuCores = dateTimeAdd(baseTime, duration)

// resource
resource identityProvider 'Microsoft.ApiManagement/service/identityProviders@2020-06-01-preview' = {
  name: dateTimeAdd(baseTime, duration, formatStr)
  properties: {
    clientId: 'googleClientId'
    clientSecret: googleClientSecret
  }
  dependsOn: [
    apiManagementService
  ]
}

// output
output ftpUser string = dateTimeAdd(site.properties, 'PT1H')

// namespace sys
output namespace string = sys.dateTimeAdd(site.properties, 'PT1H')
"
  (D [("globals", D [("scope", D [("value", Sv "resourceGroup")])]); ("parameters", D [("paramStr", D [("decorators", PList []); ("type", Sv "string"); ("default", D [("function", D [("type", Sv "date_time_add"); ("parameters", D [("base", Sv "2020-04-07 14:53:14Z"); ("duration", Sv "P3Y"); ("format", PNone)])])])])]); ("variables", D [("cpuCores", D [("decorators", PList []); ("value", D [("function", D [("type", Sv "date_time_add"); ("parameters", D [("base", Sv "baseTime"); ("duration", Sv "duration"); ("format", PNone)])])])])]); ("resources", D [("identityProvider", D [("decorators", PList []); ("type", Sv "Microsoft.ApiManagement/service/identityProviders"); ("api_version", Sv "2020-06-01-preview"); ("existing", PBool false); ("config", D [("name", D [("function", D [("type", Sv "date_time_add"); ("parameters", D [("base", Sv "baseTime"); ("duration", Sv "duration"); ("format", Sv "formatStr")])])]); ("properties", D [("clientId", Sv "googleClientId"); ("clientSecret", Sv "googleClientSecret")]); ("dependsOn", PList [Sv "apiManagementService"])])])]); ("outputs", D [("ftpUser", D [("decorators", PList []); ("type", Sv "string"); ("value", D [("function", D [("type", Sv "date_time_add"); ("parameters", D [("base", D [("operator", D [("type", Sv "property_accessor"); ("operands", D [("operand_1", Sv "site"); ("operand_2", Sv "properties")])])]); ("duration", Sv "PT1H"); ("format", PNone)])])])]); ("namespace", D [("decorators", PList []); ("type", Sv "string"); ("value", D [("function", D [("type", Sv "date_time_add"); ("parameters", D [("base", D [("operator", D [("type", Sv "property_accessor"); ("operands", D [("operand_1", Sv "site"); ("operand_2", Sv "properties")])])]); ("duration", Sv "PT1H"); ("format", PNone)])])])])])]) = true.
Proof. vm_compute. reflexivity. Qed.

(** tests/test_function/examples/date/date_time_from_epoch/main.bicep *)
Example ex_test_function_date_date_time_from_epoch : agrees false
"// https://docs.microsoft.com/en-us/azure/azure-resource-manager/bicep/bicep-functions-date#datetimefromepoch

// param
param paramStr string = dateTimeFromEpoch(1683040573)

// var
var cpuCores = dateTimeFromEpoch(epochValue)

// resource
resource identityProvider 'Microsoft.ApiManagement/service/identityProviders@2020-06-01-preview' = {
  name: dateTimeFromEpoch(epochValue)
  properties: {
    clientId: 'googleClientId'
    clientSecret: googleClientSecret
  }
  dependsOn: [
    apiManagementService
  ]
}

// output
output ftpUser string = dateTimeFromEpoch(epoch.value)

// namespace sys
output namespace string = sys.dateTimeFromEpoch(epochValue)
"
  (D [("globals", D [("scope", D [("value", Sv "resourceGroup")])]); ("parameters", D [("paramStr", D [("decorators", PList []); ("type", Sv "string"); ("default", D [("function", D [("type", Sv "date_time_from_epoch"); ("parameters", D [("epoch_time", PInt (1683040573))])])])])]); ("variables", D [("cpuCores", D [("decorators", PList []); ("value", D [("function", D [("type", Sv "date_time_from_epoch"); ("parameters", D [("epoch_time", Sv "epochValue")])])])])]); ("resources", D [("identityProvider", D [("decorators", PList []); ("type", Sv "Microsoft.ApiManagement/service/identityProviders"); ("api_version", Sv "2020-06-01-preview"); ("existing", PBool false); ("config", D [("name", D [("function", D [("type", Sv "date_time_from_epoch"); ("parameters", D [("epoch_time", Sv "epochValue")])])]); ("properties", D [("clientId", Sv "googleClientId"); ("clientSecret", Sv "googleClientSecret")]); ("dependsOn", PList [Sv "apiManagementService"])])])]); ("outputs", D [("ftpUser", D [("decorators", PList []); ("type", Sv "string"); ("value", D [("function", D [("type", Sv "date_time_from_epoch"); ("parameters", D [("epoch_time", D [("operator", D [("type", Sv "property_accessor"); ("operands", D [("operand_1", Sv "epoch"); ("operand_2", Sv "value")])])])])])])]); ("namespace", D [("decorators", PList []); ("type", Sv "string"); ("value", D [("function", D [("type", Sv "date_time_from_epoch"); ("parameters", D [("epoch_time", Sv "epochValue")])])])])])]) = true.
Proof. vm_compute. reflexivity. Qed.

(** tests/test_function/examples/date/date_time_to_epoch/main.bicep *)
Example ex_test_function_date_date_time_to_epoch : agrees false
"// https://docs.microsoft.com/en-us/azure/azure-resource-manager/bicep/bicep-functions-date#datetimetoepoch

// param
param paramStr string = dateTimeToEpoch('4/7/2023 2:53:14 PM')

// var
var cpuCores = dateTimeToEpoch(epochValue)

// resource
resource identityProvider 'Microsoft.ApiManagement/service/identityProviders@2020-06-01-preview' = {
  name: dateTimeToEpoch(epochValue)
  properties: {
    clientId: 'googleClientId'
    clientSecret: googleClientSecret
  }
  dependsOn: [
    apiManagementService
  ]
}

// output
output ftpUser string = dateTimeToEpoch(epoch.value)

// namespace sys
output namespace string = sys.dateTimeToEpoch(epochValue)
"
  (D [("globals", D [("scope", D [("value", Sv "resourceGroup")])]); ("parameters", D [("paramStr", D [("decorators", PList []); ("type", Sv "string"); ("default", D [("function", D [("type", Sv "date_time_to_epoch"); ("parameters", D [("date_time", Sv "4/7/2023 2:53:14 PM")])])])])]); ("variables", D [("cpuCores", D [("decorators", PList []); ("value", D [("function", D [("type", Sv "date_time_to_epoch"); ("parameters", D [("date_time", Sv "epochValue")])])])])]); ("resources", D [("identityProvider", D [("decorators", PList []); ("type", Sv "Microsoft.ApiManagement/service/identityProviders"); ("api_version", Sv "2020-06-01-preview"); ("existing", PBool false); ("config", D [("name", D [("function", D [("type", Sv "date_time_to_epoch"); ("parameters", D [("date_time", Sv "epochValue")])])]); ("properties", D [("clientId", Sv "googleClientId"); ("clientSecret", Sv "googleClientSecret")]); ("dependsOn", PList [Sv "apiManagementService"])])])]); ("outputs", D [("ftpUser", D [("decorators", PList []); ("type", Sv "string"); ("value", D [("function", D [("type", Sv "date_time_to_epoch"); ("parameters", D [("date_time", D [("operator", D [("type", Sv "property_accessor"); ("operands", D [("operand_1", Sv "epoch"); ("operand_2", Sv "value")])])])])])])]); ("namespace", D [("decorators", PList []); ("type", Sv "string"); ("value", D [("function", D [("type", Sv "date_time_to_epoch"); ("parameters", D [("date_time", Sv "epochValue")])])])])])]) = true.
Proof. vm_compute. reflexivity. Qed.

(** tests/test_function/examples/date/utc_now/main.bicep *)
Example ex_test_function_date_utc_now : agrees false
"// https://docs.microsoft.com/en-us/azure/azure-resource-manager/bicep/bicep-functions-date#utcnow

// param
param currentTime string = utcNow()

param utcShortValue string = utcNow('d')
"
  (D [("globals", D [("scope", D [("value", Sv "resourceGroup")])]); ("parameters", D [("currentTime", D [("decorators", PList []); ("type", Sv "string"); ("default", D [("function", D [("type", Sv "utc_now"); ("parameters", D [("format", PNone)])])])]); ("utcShortValue", D [("decorators", PList []); ("type", Sv "string"); ("default", D [("function", D [("type", Sv "utc_now"); ("parameters", D [("format", Sv "d")])])])])])]) = true.
Proof. vm_compute. reflexivity. Qed.

(** tests/test_function/examples/deployment/deployment/main.bicep *)
Example ex_test_function_deployment_deployment : agrees false
"// https://docs.microsoft.com/en-us/azure/azure-resource-manager/bicep/bicep-functions-deployment#deployment

// param
param paramStr object = deployment()

// var
var cpuCores = deployment()

// resource
resource identityProvider 'Microsoft.ApiManagement/service/identityProviders@2020-06-01-preview' = {
  name: deployment().name
  properties: {
    clientId: 'googleClientId'
    clientSecret: deployment
  }
  dependsOn: [
    apiManagementService
  ]
}

// output
output ftpUser object = deployment()

// namespace sys
output namespace object = az.deployment()
"
  (D [("globals", D [("scope", D [("value", Sv "resourceGroup")])]); ("parameters", D [("paramStr", D [("decorators", PList []); ("type", Sv "object"); ("default", D [("function", D [("type", Sv "deployment")])])])]); ("variables", D [("cpuCores", D [("decorators", PList []); ("value", D [("function", D [("type", Sv "deployment")])])])]); ("resources", D [("identityProvider", D [("decorators", PList []); ("type", Sv "Microsoft.ApiManagement/service/identityProviders"); ("api_version", Sv "2020-06-01-preview"); ("existing", PBool false); ("config", D [("name", D [("operator", D [("type", Sv "property_accessor"); ("operands", D [("operand_1", D [("function", D [("type", Sv "deployment")])]); ("operand_2", Sv "name")])])]); ("properties", D [("clientId", Sv "googleClientId"); ("clientSecret", Sv "deployment")]); ("dependsOn", PList [Sv "apiManagementService"])])])]); ("outputs", D [("ftpUser", D [("decorators", PList []); ("type", Sv "object"); ("value", D [("function", D [("type", Sv "deployment")])])]); ("namespace", D [("decorators", PList []); ("type", Sv "object"); ("value", D [("function", D [("type", Sv "deployment")])])])])]) = true.
Proof. vm_compute. reflexivity. Qed.

(** tests/test_function/examples/deployment/environment/main.bicep *)
Example ex_test_function_deployment_environment : agrees false
"// https://docs.microsoft.com/en-us/azure/azure-resource-manager/bicep/bicep-functions-deployment#environment

// param
param paramStr object = environment()

// var
var cpuCores = environment()

// resource
resource identityProvider 'Microsoft.ApiManagement/service/identityProviders@2020-06-01-preview' = {
  name: environment().name
  properties: {
    clientId: 'googleClientId'
    clientSecret: environment
  }
  dependsOn: [
    apiManagementService
  ]
}

// output
output ftpUser object = environment()

// namespace sys
output namespace object = az.environment()
"
  (D [("globals", D [("scope", D [("value", Sv "resourceGroup")])]); ("parameters", D [("paramStr", D [("decorators", PList []); ("type", Sv "object"); ("default", D [("function", D [("type", Sv "environment")])])])]); ("variables", D [("cpuCores", D [("decorators", PList []); ("value", D [("function", D [("type", Sv "environment")])])])]); ("resources", D [("identityProvider", D [("decorators", PList []); ("type", Sv "Microsoft.ApiManagement/service/identityProviders"); ("api_version", Sv "2020-06-01-preview"); ("existing", PBool false); ("config", D [("name", D [("operator", D [("type", Sv "property_accessor"); ("operands", D [("operand_1", D [("function", D [("type", Sv "environment")])]); ("operand_2", Sv "name")])])]); ("properties", D [("clientId", Sv "googleClientId"); ("clientSecret", Sv "environment")]); ("dependsOn", PList [Sv "apiManagementService"])])])]); ("outputs", D [("ftpUser", D [("decorators", PList []); ("type", Sv "object"); ("value", D [("function", D [("type", Sv "environment")])])]); ("namespace", D [("decorators", PList []); ("type", Sv "object"); ("value", D [("function", D [("type", Sv "environment")])])])])]) = true.
Proof. vm_compute. reflexivity. Qed.

(** tests/test_function/examples/file/load_file_as_base64/main.bicep *)
Example ex_test_function_file_load_file_as_base64 : agrees false
"// https://docs.microsoft.com/en-us/azure/azure-resource-manager/bicep/bicep-functions-files#loadfileasbase64

// param
param paramStr string = loadFileAsBase64('rules.json')

// var
var cpuCores = loadFileAsBase64(filePath)

// resource
resource identityProvider 'Microsoft.ApiManagement/service/identityProviders@2020-06-01-preview' = {
  name: 'exmple'
  properties: loadFileAsBase64(filePath)
  dependsOn: [
    apiManagementService
  ]
}

// output
output ftpUser string = loadFileAsBase64(filePath)

// namespace
output namespace string = sys.loadFileAsBase64(filePath)
"
  (D [("globals", D [("scope", D [("value", Sv "resourceGroup")])]); ("parameters", D [("paramStr", D [("decorators", PList []); ("type", Sv "string"); ("default", D [("function", D [("type", Sv "load_file_as_base64"); ("parameters", D [("file_path", Sv "rules.json")])])])])]); ("variables", D [("cpuCores", D [("decorators", PList []); ("value", D [("function", D [("type", Sv "load_file_as_base64"); ("parameters", D [("file_path", Sv "filePath")])])])])]); ("resources", D [("identityProvider", D [("decorators", PList []); ("type", Sv "Microsoft.ApiManagement/service/identityProviders"); ("api_version", Sv "2020-06-01-preview"); ("existing", PBool false); ("config", D [("name", Sv "exmple"); ("properties", D [("function", D [("type", Sv "load_file_as_base64"); ("parameters", D [("file_path", Sv "filePath")])])]); ("dependsOn", PList [Sv "apiManagementService"])])])]); ("outputs", D [("ftpUser", D [("decorators", PList []); ("type", Sv "string"); ("value", D [("function", D [("type", Sv "load_file_as_base64"); ("parameters", D [("file_path", Sv "filePath")])])])]); ("namespace", D [("decorators", PList []); ("type", Sv "string"); ("value", D [("function", D [("type", Sv "load_file_as_base64"); ("parameters", D [("file_path", Sv "filePath")])])])])])]) = true.
Proof. vm_compute. reflexivity. Qed.

(** tests/test_function/examples/file/load_json_content/main.bicep *)
Example ex_test_function_file_load_json_content : agrees false
"// https://docs.microsoft.com/en-us/azure/azure-resource-manager/bicep/bicep-functions-files#loadjsoncontent

// param
param paramStr string = loadJsonContent('rules.json', 'firstRule')

// var
var cpuCores = loadJsonContent(filePath, jsonPath, encoding)

// resource
resource identityProvider 'Microsoft.ApiManagement/service/identityProviders@2020-06-01-preview' = {
  name: 'example'
  properties: loadJsonContent(filePath)
  dependsOn: [
    apiManagementService
  ]
}

// output
output ftpUser string = loadJsonContent(filePath)

output ftpUserId string = loadJsonContent(filePath).id

output lateIndexed string = loadJsonContent('./vars.json').subscriptions[env].id

output directIndexed string = loadJsonContent('./vars.json')[sub].dev[var_id]

// namespace
output namespace string = sys.loadJsonContent(filePath)

// output
"
  (D [("globals", D [("scope", D [("value", Sv "resourceGroup")])]); ("parameters", D [("paramStr", D [("decorators", PList []); ("type", Sv "string"); ("default", D [("function", D [("type", Sv "load_json_content"); ("parameters", D [("file_path", Sv "rules.json"); ("json_path", Sv "firstRule"); ("encoding", PNone)])])])])]); ("variables", D [("cpuCores", D [("decorators", PList []); ("value", D [("function", D [("type", Sv "load_json_content"); ("parameters", D [("file_path", Sv "filePath"); ("json_path", Sv "jsonPath"); ("encoding", Sv "encoding")])])])])]); ("resources", D [("identityProvider", D [("decorators", PList []); ("type", Sv "Microsoft.ApiManagement/service/identityProviders"); ("api_version", Sv "2020-06-01-preview"); ("existing", PBool false); ("config", D [("name", Sv "example"); ("properties", D [("function", D [("type", Sv "load_json_content"); ("parameters", D [("file_path", Sv "filePath"); ("json_path", PNone); ("encoding", PNone)])])]); ("dependsOn", PList [Sv "apiManagementService"])])])]); ("outputs", D [("ftpUser", D [("decorators", PList []); ("type", Sv "string"); ("value", D [("function", D [("type", Sv "load_json_content"); ("parameters", D [("file_path", Sv "filePath"); ("json_path", PNone); ("encoding", PNone)])])])]); ("ftpUserId", D [("decorators", PList []); ("type", Sv "string"); ("value", D [("operator", D [("type", Sv "property_accessor"); ("operands", D [("operand_1", D [("function", D [("type", Sv "load_json_content"); ("parameters", D [("file_path", Sv "filePath"); ("json_path", PNone); ("encoding", PNone)])])]); ("operand_2", Sv "id")])])])]); ("lateIndexed", D [("decorators", PList []); ("type", Sv "string"); ("value", D [("operator", D [("type", Sv "property_accessor"); ("operands", D [("operand_1", D [("function", D [("type", Sv "load_json_content"); ("parameters", D [("file_path", Sv "./vars.json"); ("json_path", PNone); ("encoding", PNone)])])]); ("operand_2", D [("operator", D [("type", Sv "property_accessor"); ("operands", D [("operand_1", D [("operator", D [("type", Sv "index_accessor"); ("operands", D [("operand_1", Sv "subscriptions"); ("operand_2", Sv "env")])])]); ("operand_2", Sv "id")])])])])])])]); ("directIndexed", D [("decorators", PList []); ("type", Sv "string"); ("value", D [("operator", D [("type", Sv "property_accessor"); ("operands", D [("operand_1", D [("operator", D [("type", Sv "index_accessor"); ("operands", D [("operand_1", D [("function", D [("type", Sv "load_json_content"); ("parameters", D [("file_path", Sv "./vars.json"); ("json_path", PNone); ("encoding", PNone)])])]); ("operand_2", Sv "sub")])])]); ("operand_2", D [("operator", D [("type", Sv "index_accessor"); ("operands", D [("operand_1", Sv "dev"); ("operand_2", Sv "var_id")])])])])])])]); ("namespace", D [("decorators", PList []); ("type", Sv "string"); ("value", D [("function", D [("type", Sv "load_json_content"); ("parameters", D [("file_path", Sv "filePath"); ("json_path", PNone); ("encoding", PNone)])])])])])]) = true.
Proof. vm_compute. reflexivity. Qed.

(** tests/test_function/examples/file/load_text_content/main.bicep *)
Example ex_test_function_file_load_text_content : agrees false
"// https://docs.microsoft.com/en-us/azure/azure-resource-manager/bicep/bicep-functions-files#loadtextcontent

// param
param paramStr string = loadTextContent('rules.json', 'utf-8')

// var
var cpuCores = loadTextContent(filePath, encoding)

// resource
resource identityProvider 'Microsoft.ApiManagement/service/identityProviders@2020-06-01-preview' = {
  name: 'exmple'
  properties: loadTextContent(filePath)
  dependsOn: [
    apiManagementService
  ]
}

// output
output ftpUser string = loadTextContent(filePath)

// namespace
output namespace string = sys.loadTextContent(filePath)
"
  (D [("globals", D [("scope", D [("value", Sv "resourceGroup")])]); ("parameters", D [("paramStr", D [("decorators", PList []); ("type", Sv "string"); ("default", D [("function", D [("type", Sv "load_text_content"); ("parameters", D [("file_path", Sv "rules.json"); ("encoding", Sv "utf-8")])])])])]); ("variables", D [("cpuCores", D [("decorators", PList []); ("value", D [("function", D [("type", Sv "load_text_content"); ("parameters", D [("file_path", Sv "filePath"); ("encoding", Sv "encoding")])])])])]); ("resources", D [("identityProvider", D [("decorators", PList []); ("type", Sv "Microsoft.ApiManagement/service/identityProviders"); ("api_version", Sv "2020-06-01-preview"); ("existing", PBool false); ("config", D [("name", Sv "exmple"); ("properties", D [("function", D [("type", Sv "load_text_content"); ("parameters", D [("file_path", Sv "filePath"); ("encoding", PNone)])])]); ("dependsOn", PList [Sv "apiManagementService"])])])]); ("outputs", D [("ftpUser", D [("decorators", PList []); ("type", Sv "string"); ("value", D [("function", D [("type", Sv "load_text_content"); ("parameters", D [("file_path", Sv "filePath"); ("encoding", PNone)])])])]); ("namespace", D [("decorators", PList []); ("type", Sv "string"); ("value", D [("function", D [("type", Sv "load_text_content"); ("parameters", D [("file_path", Sv "filePath"); ("encoding", PNone)])])])])])]) = true.
Proof. vm_compute. reflexivity. Qed.

(** tests/test_function/examples/file/load_yaml_content/main.bicep *)
Example ex_test_function_file_load_yaml_content : agrees false
"// https://learn.microsoft.com/en-us/azure/azure-resource-manager/bicep/bicep-functions-files#loadyamlcontent

// param
param paramStr string = loadYamlContent('rules.yaml', 'firstRule')

// var
var cpuCores = loadYamlContent(filePath, yamlPath, encoding)

// resource
resource identityProvider 'Microsoft.ApiManagement/service/identityProviders@2020-06-01-preview' = {
  name: 'example'
  properties: loadYamlContent(filePath)
  dependsOn: [
    apiManagementService
  ]
}

// output
output ftpUser string = loadYamlContent(filePath)

output ftpUserId string = loadYamlContent(filePath).id

output lateIndexed string = loadYamlContent('./vars.yaml').subscriptions[env].id

output directIndexed string = loadYamlContent('./vars.yaml')[sub].dev[var_id]

// namespace
output namespace string = sys.loadYamlContent(filePath)

// output
"
  (D [("globals", D [("scope", D [("value", Sv "resourceGroup")])]); ("parameters", D [("paramStr", D [("decorators", PList []); ("type", Sv "string"); ("default", D [("function", D [("type", Sv "load_yaml_content"); ("parameters", D [("file_path", Sv "rules.yaml"); ("path_filter", Sv "firstRule"); ("encoding", PNone)])])])])]); ("variables", D [("cpuCores", D [("decorators", PList []); ("value", D [("function", D [("type", Sv "load_yaml_content"); ("parameters", D [("file_path", Sv "filePath"); ("path_filter", Sv "yamlPath"); ("encoding", Sv "encoding")])])])])]); ("resources", D [("identityProvider", D [("decorators", PList []); ("type", Sv "Microsoft.ApiManagement/service/identityProviders"); ("api_version", Sv "2020-06-01-preview"); ("existing", PBool false); ("config", D [("name", Sv "example"); ("properties", D [("function", D [("type", Sv "load_yaml_content"); ("parameters", D [("file_path", Sv "filePath"); ("path_filter", PNone); ("encoding", PNone)])])]); ("dependsOn", PList [Sv "apiManagementService"])])])]); ("outputs", D [("ftpUser", D [("decorators", PList []); ("type", Sv "string"); ("value", D [("function", D [("type", Sv "load_yaml_content"); ("parameters", D [("file_path", Sv "filePath"); ("path_filter", PNone); ("encoding", PNone)])])])]); ("ftpUserId", D [("decorators", PList []); ("type", Sv "string"); ("value", D [("operator", D [("type", Sv "property_accessor"); ("operands", D [("operand_1", D [("function", D [("type", Sv "load_yaml_content"); ("parameters", D [("file_path", Sv "filePath"); ("path_filter", PNone); ("encoding", PNone)])])]); ("operand_2", Sv "id")])])])]); ("lateIndexed", D [("decorators", PList []); ("type", Sv "string"); ("value", D [("operator", D [("type", Sv "property_accessor"); ("operands", D [("operand_1", D [("function", D [("type", Sv "load_yaml_content"); ("parameters", D [("file_path", Sv "./vars.yaml"); ("path_filter", PNone); ("encoding", PNone)])])]); ("operand_2", D [("operator", D [("type", Sv "property_accessor"); ("operands", D [("operand_1", D [("operator", D [("type", Sv "index_accessor"); ("operands", D [("operand_1", Sv "subscriptions"); ("operand_2", Sv "env")])])]); ("operand_2", Sv "id")])])])])])])]); ("directIndexed", D [("decorators", PList []); ("type", Sv "string"); ("value", D [("operator", D [("type", Sv "property_accessor"); ("operands", D [("operand_1", D [("operator", D [("type", Sv "index_accessor"); ("operands", D [("operand_1", D [("function", D [("type", Sv "load_yaml_content"); ("parameters", D [("file_path", Sv "./vars.yaml"); ("path_filter", PNone); ("encoding", PNone)])])]); ("operand_2", Sv "sub")])])]); ("operand_2", D [("operator", D [("type", Sv "index_accessor"); ("operands", D [("operand_1", Sv "dev"); ("operand_2", Sv "var_id")])])])])])])]); ("namespace", D [("decorators", PList []); ("type", Sv "string"); ("value", D [("function", D [("type", Sv "load_yaml_content"); ("parameters", D [("file_path", Sv "filePath"); ("path_filter", PNone); ("encoding", PNone)])])])])])]) = true.
Proof. vm_compute. reflexivity. Qed.

(** tests/test_function/examples/lambda/filter/main.bicep *)
Example ex_test_function_lambda_filter : agrees false
"// https://learn.microsoft.com/en-us/azure/azure-resource-manager/bicep/bicep-functions-lambda#filter

// var
var diagnosticsLogsSpecified = [for category in filter(diagnosticLogCategoriesToEnable, item => item != 'allLogs'): {
  category: category
  enabled: true
  retentionPolicy: {
    enabled: true
    days: diagnosticLogsRetentionInDays
  }
}]

// resource
resource identityProvider 'Microsoft.ApiManagement/service/identityProviders@2020-06-01-preview' = {
  name: filter(itemForLoop, i => i > 5)
  properties: {
    clientId: 'googleClientId'
    clientSecret: googleClientSecret
  }
  dependsOn: [
    apiManagementService
  ]
}

// output
output oldDogs array = filter(dogs, dog => (dog.age) >= 5)

// namespace sys
output namespace array = sys.filter(dogs, dog => (dog.age) >= 5)
"
  (D [("globals", D [("scope", D [("value", Sv "resourceGroup")])]); ("variables", D [("diagnosticsLogsSpecified", D [("decorators", PList []); ("value", D [("loop_type", D [("type", Sv "array"); ("detail", D [("item_name", Sv "category"); ("array_name", D [("function", D [("type", Sv "filter"); ("parameters", D [("input_array", Sv "diagnosticLogCategoriesToEnable"); ("expression", D [("type", Sv "lambda_expression"); ("detail", D [("var_1", Sv "item"); ("expression", D [("operator", D [("type", Sv "not_equals"); ("operands", D [("operand_1", Sv "item"); ("operand_2", Sv "allLogs")])])])])])])])])])]); ("condition", PNone); ("config", D [("category", Sv "category"); ("enabled", PBool true); ("retentionPolicy", D [("enabled", PBool true); ("days", Sv "diagnosticLogsRetentionInDays")])])])])]); ("resources", D [("identityProvider", D [("decorators", PList []); ("type", Sv "Microsoft.ApiManagement/service/identityProviders"); ("api_version", Sv "2020-06-01-preview"); ("existing", PBool false); ("config", D [("name", D [("function", D [("type", Sv "filter"); ("parameters", D [("input_array", Sv "itemForLoop"); ("expression", D [("type", Sv "lambda_expression"); ("detail", D [("var_1", Sv "i"); ("expression", D [("operator", D [("type", Sv "greater_than"); ("operands", D [("operand_1", Sv "i"); ("operand_2", PInt (5))])])])])])])])]); ("properties", D [("clientId", Sv "googleClientId"); ("clientSecret", Sv "googleClientSecret")]); ("dependsOn", PList [Sv "apiManagementService"])])])]); ("outputs", D [("oldDogs", D [("decorators", PList []); ("type", Sv "array"); ("value", D [("function", D [("type", Sv "filter"); ("parameters", D [("input_array", Sv "dogs"); ("expression", D [("type", Sv "lambda_expression"); ("detail", D [("var_1", Sv "dog"); ("expression", D [("operator", D [("type", Sv "greater_than_or_equals"); ("operands", D [("operand_1", D [("operator", D [("type", Sv "property_accessor"); ("operands", D [("operand_1", Sv "dog"); ("operand_2", Sv "age")])])]); ("operand_2", PInt (5))])])])])])])])])]); ("namespace", D [("decorators", PList []); ("type", Sv "array"); ("value", D [("function", D [("type", Sv "filter"); ("parameters", D [("input_array", Sv "dogs"); ("expression", D [("type", Sv "lambda_expression"); ("detail", D [("var_1", Sv "dog"); ("expression", D [("operator", D [("type", Sv "greater_than_or_equals"); ("operands", D [("operand_1", D [("operator", D [("type", Sv "property_accessor"); ("operands", D [("operand_1", Sv "dog"); ("operand_2", Sv "age")])])]); ("operand_2", PInt (5))])])])])])])])])])])]) = true.
Proof. vm_compute. reflexivity. Qed.

(** tests/test_function/examples/logical/bool/main.bicep *)
Example ex_test_function_logical_bool : agrees false
"// https://docs.microsoft.com/en-us/azure/azure-resource-manager/bicep/bicep-functions-logical#bool

// param
param paramStr bool = bool(true)

// var
var cpuCores = bool('0.5')

// resource
resource identityProvider 'Microsoft.ApiManagement/service/identityProviders@2020-06-01-preview' = {
  name: bool('${apiManagementService.name}/google')
  properties: {
    clientId: 'googleClientId'
    clientSecret: googleClientSecret
  }
}

// output
output ftpUser bool = bool(site.properties)

// namespace sys
output namespace bool = sys.bool(site.properties)
"
  (D [("globals", D [("scope", D [("value", Sv "resourceGroup")])]); ("parameters", D [("paramStr", D [("decorators", PList []); ("type", Sv "bool"); ("default", D [("function", D [("type", Sv "bool"); ("parameters", D [("arg_1", PBool true)])])])])]); ("variables", D [("cpuCores", D [("decorators", PList []); ("value", D [("function", D [("type", Sv "bool"); ("parameters", D [("arg_1", Sv "0.5")])])])])]); ("resources", D [("identityProvider", D [("decorators", PList []); ("type", Sv "Microsoft.ApiManagement/service/identityProviders"); ("api_version", Sv "2020-06-01-preview"); ("existing", PBool false); ("config", D [("name", D [("function", D [("type", Sv "bool"); ("parameters", D [("arg_1", Sv "${apiManagementService.name}/google")])])]); ("properties", D [("clientId", Sv "googleClientId"); ("clientSecret", Sv "googleClientSecret")])])])]); ("outputs", D [("ftpUser", D [("decorators", PList []); ("type", Sv "bool"); ("value", D [("function", D [("type", Sv "bool"); ("parameters", D [("arg_1", D [("operator", D [("type", Sv "property_accessor"); ("operands", D [("operand_1", Sv "site"); ("operand_2", Sv "properties")])])])])])])]); ("namespace", D [("decorators", PList []); ("type", Sv "bool"); ("value", D [("function", D [("type", Sv "bool"); ("parameters", D [("arg_1", D [("operator", D [("type", Sv "property_accessor"); ("operands", D [("operand_1", Sv "site"); ("operand_2", Sv "properties")])])])])])])])])]) = true.
Proof. vm_compute. reflexivity. Qed.

(** tests/test_function/examples/numeric/int/main.bicep *)
Example ex_test_function_numeric_int : agrees false
"// https://docs.microsoft.com/en-us/azure/azure-resource-manager/bicep/bicep-functions-numeric#int

// param
param paramStr int = int(1)

// var
var cpuCores = int('0.5')

// resource
resource identityProvider 'Microsoft.ApiManagement/service/identityProviders@2020-06-01-preview' = {
  name: int(value)
  properties: {
    clientId: 'googleClientId'
    clientSecret: googleClientSecret
  }
}

// output
output ftpUser int = int(site.properties)

// namespace
output namespace int = sys.int(site.properties)
"
  (D [("globals", D [("scope", D [("value", Sv "resourceGroup")])]); ("parameters", D [("paramStr", D [("decorators", PList []); ("type", Sv "int"); ("default", D [("function", D [("type", Sv "int"); ("parameters", D [("value_to_convert", PInt (1))])])])])]); ("variables", D [("cpuCores", D [("decorators", PList []); ("value", D [("function", D [("type", Sv "int"); ("parameters", D [("value_to_convert", Sv "0.5")])])])])]); ("resources", D [("identityProvider", D [("decorators", PList []); ("type", Sv "Microsoft.ApiManagement/service/identityProviders"); ("api_version", Sv "2020-06-01-preview"); ("existing", PBool false); ("config", D [("name", D [("function", D [("type", Sv "int"); ("parameters", D [("value_to_convert", Sv "value")])])]); ("properties", D [("clientId", Sv "googleClientId"); ("clientSecret", Sv "googleClientSecret")])])])]); ("outputs", D [("ftpUser", D [("decorators", PList []); ("type", Sv "int"); ("value", D [("function", D [("type", Sv "int"); ("parameters", D [("value_to_convert", D [("operator", D [("type", Sv "property_accessor"); ("operands", D [("operand_1", Sv "site"); ("operand_2", Sv "properties")])])])])])])]); ("namespace", D [("decorators", PList []); ("type", Sv "int"); ("value", D [("function", D [("type", Sv "int"); ("parameters", D [("value_to_convert", D [("operator", D [("type", Sv "property_accessor"); ("operands", D [("operand_1", Sv "site"); ("operand_2", Sv "properties")])])])])])])])])]) = true.
Proof. vm_compute. reflexivity. Qed.

(** tests/test_function/examples/object/json/main.bicep *)
Example ex_test_function_object_json : agrees false
"// https://docs.microsoft.com/en-us/azure/azure-resource-manager/bicep/bicep-functions-object#json

// param
param paramStr string = json('null')

// var
var varStr = json('{\'a\': \'b\'}')

// resource
resource identityProvider 'Microsoft.ApiManagement/service/identityProviders@2020-06-01-preview' = {
  name: json(someJsonObject)
  properties: {
    clientId: 'googleClientId'
    clientSecret: json
  }
  dependsOn: [
    apiManagementService
  ]
}

// output
output ftpUser string = json(site.properties).id

output lateIndexed string = json(loadTextContent('./vars.json')).subscriptions[env].id

output directIndexed string = json(loadTextContent('./vars.json'))[sub].dev[var_id]

// namespace sys
output namespace string = sys.json(site)
"
  (D [("globals", D [("scope", D [("value", Sv "resourceGroup")])]); ("parameters", D [("paramStr", D [("decorators", PList []); ("type", Sv "string"); ("default", D [("function", D [("type", Sv "json"); ("parameters", D [("arg_1", Sv "null")])])])])]); ("variables", D [("varStr", D [("decorators", PList []); ("value", D [("function", D [("type", Sv "json"); ("parameters", D [("arg_1", Sv "{\'a\': \'b\'}")])])])])]); ("resources", D [("identityProvider", D [("decorators", PList []); ("type", Sv "Microsoft.ApiManagement/service/identityProviders"); ("api_version", Sv "2020-06-01-preview"); ("existing", PBool false); ("config", D [("name", D [("function", D [("type", Sv "json"); ("parameters", D [("arg_1", Sv "someJsonObject")])])]); ("properties", D [("clientId", Sv "googleClientId"); ("clientSecret", Sv "json")]); ("dependsOn", PList [Sv "apiManagementService"])])])]); ("outputs", D [("ftpUser", D [("decorators", PList []); ("type", Sv "string"); ("value", D [("operator", D [("type", Sv "property_accessor"); ("operands", D [("operand_1", D [("function", D [("type", Sv "json"); ("parameters", D [("arg_1", D [("operator", D [("type", Sv "property_accessor"); ("operands", D [("operand_1", Sv "site"); ("operand_2", Sv "properties")])])])])])]); ("operand_2", Sv "id")])])])]); ("lateIndexed", D [("decorators", PList []); ("type", Sv "string"); ("value", D [("operator", D [("type", Sv "property_accessor"); ("operands", D [("operand_1", D [("function", D [("type", Sv "json"); ("parameters", D [("arg_1", D [("function", D [("type", Sv "load_text_content"); ("parameters", D [("file_path", Sv "./vars.json"); ("encoding", PNone)])])])])])]); ("operand_2", D [("operator", D [("type", Sv "property_accessor"); ("operands", D [("operand_1", D [("operator", D [("type", Sv "index_accessor"); ("operands", D [("operand_1", Sv "subscriptions"); ("operand_2", Sv "env")])])]); ("operand_2", Sv "id")])])])])])])]); ("directIndexed", D [("decorators", PList []); ("type", Sv "string"); ("value", D [("operator", D [("type", Sv "property_accessor"); ("operands", D [("operand_1", D [("operator", D [("type", Sv "index_accessor"); ("operands", D [("operand_1", D [("function", D [("type", Sv "json"); ("parameters", D [("arg_1", D [("function", D [("type", Sv "load_text_content"); ("parameters", D [("file_path", Sv "./vars.json"); ("encoding", PNone)])])])])])]); ("operand_2", Sv "sub")])])]); ("operand_2", D [("operator", D [("type", Sv "index_accessor"); ("operands", D [("operand_1", Sv "dev"); ("operand_2", Sv "var_id")])])])])])])]); ("namespace", D [("decorators", PList []); ("type", Sv "string"); ("value", D [("function", D [("type", Sv "json"); ("parameters", D [("arg_1", Sv "site")])])])])])]) = true.
Proof. vm_compute. reflexivity. Qed.

(** tests/test_function/examples/resource/extension_resource_id/main.bicep *)
Example ex_test_function_resource_extension_resource_id : agrees false
"// https://docs.microsoft.com/en-us/azure/azure-resource-manager/bicep/bicep-functions-resource#extensionresourceid

// param
param uamiId string = extensionResourceId(resourceId, 'Microsoft.ManagedIdentity/userAssignedIdentities', uamiName)

// var
var uamiId = extensionResourceId(id, 'Microsoft.ManagedIdentity/userAssignedIdentities', uamiName)

// resource
resource logAnalyticsAutomation 'Microsoft.OperationalInsights/workspaces/linkedServices@2020-08-01' = {
  parent: logAnalyticsWorkspace
  name: 'Automation'
  properties: {
    extensionResourceId: extensionResourceId(id, 'Microsoft.Automation/automationAccounts', automationAccountName)
  }
}

// module
module exampleModule 'rgModule.bicep' = {
  name: 'exampleModule'
  params: {
    location: location
    fwname: extensionResourceId(mi.id, mi.type, mi.name)
    extensionResourceId: id
  }
}

// output
output subnetId string = extensionResourceId(rId, 'Microsoft.Network/virtualNetworks/subnets', vnet.name, subnet1Name)

// namespace az
output namespace object = az.extensionResourceId(rId, 'Microsoft.Automation/automationAccounts', automationAccountName)
"
  (D [("globals", D [("scope", D [("value", Sv "resourceGroup")])]); ("parameters", D [("uamiId", D [("decorators", PList []); ("type", Sv "string"); ("default", D [("function", D [("type", Sv "extension_resource_id"); ("parameters", D [("resource_id", Sv "resourceId"); ("resource_type", Sv "Microsoft.ManagedIdentity/userAssignedIdentities"); ("resource_name_1", Sv "uamiName"); ("resource_name_2", PNone)])])])])]); ("variables", D [("uamiId", D [("decorators", PList []); ("value", D [("function", D [("type", Sv "extension_resource_id"); ("parameters", D [("resource_id", Sv "id"); ("resource_type", Sv "Microsoft.ManagedIdentity/userAssignedIdentities"); ("resource_name_1", Sv "uamiName"); ("resource_name_2", PNone)])])])])]); ("resources", D [("logAnalyticsAutomation", D [("decorators", PList []); ("type", Sv "Microsoft.OperationalInsights/workspaces/linkedServices"); ("api_version", Sv "2020-08-01"); ("existing", PBool false); ("config", D [("parent", Sv "logAnalyticsWorkspace"); ("name", Sv "Automation"); ("properties", D [("extensionResourceId", D [("function", D [("type", Sv "extension_resource_id"); ("parameters", D [("resource_id", Sv "id"); ("resource_type", Sv "Microsoft.Automation/automationAccounts"); ("resource_name_1", Sv "automationAccountName"); ("resource_name_2", PNone)])])])])])])]); ("modules", D [("exampleModule", D [("decorators", PList []); ("type", Sv "local"); ("detail", D [("full", Sv "rgModule.bicep"); ("path", Sv "rgModule.bicep")]); ("config", D [("name", Sv "exampleModule"); ("params", D [("location", Sv "location"); ("fwname", D [("function", D [("type", Sv "extension_resource_id"); ("parameters", D [("resource_id", D [("operator", D [("type", Sv "property_accessor"); ("operands", D [("operand_1", Sv "mi"); ("operand_2", Sv "id")])])]); ("resource_type", D [("operator", D [("type", Sv "property_accessor"); ("operands", D [("operand_1", Sv "mi"); ("operand_2", Sv "type")])])]); ("resource_name_1", D [("operator", D [("type", Sv "property_accessor"); ("operands", D [("operand_1", Sv "mi"); ("operand_2", Sv "name")])])]); ("resource_name_2", PNone)])])]); ("extensionResourceId", Sv "id")])])])]); ("outputs", D [("subnetId", D [("decorators", PList []); ("type", Sv "string"); ("value", D [("function", D [("type", Sv "extension_resource_id"); ("parameters", D [("resource_id", Sv "rId"); ("resource_type", Sv "Microsoft.Network/virtualNetworks/subnets"); ("resource_name_1", D [("operator", D [("type", Sv "property_accessor"); ("operands", D [("operand_1", Sv "vnet"); ("operand_2", Sv "name")])])]); ("resource_name_2", Sv "subnet1Name")])])])]); ("namespace", D [("decorators", PList []); ("type", Sv "object"); ("value", D [("function", D [("type", Sv "extension_resource_id"); ("parameters", D [("resource_id", Sv "rId"); ("resource_type", Sv "Microsoft.Automation/automationAccounts"); ("resource_name_1", Sv "automationAccountName"); ("resource_name_2", PNone)])])])])])]) = true.
Proof. vm_compute. reflexivity. Qed.

(** tests/test_function/examples/resource/list_keys/main.bicep *)
Example ex_test_function_resource_list_keys : agrees false
"// https://docs.microsoft.com/en-us/azure/azure-resource-manager/bicep/bicep-functions-resource#list

// param
param uamiId object = listKeys(refId, apiVersion)

// var
var uamiId = listKeys(refId, '2020-09-01')

// resource
resource logAnalyticsAutomation 'Microsoft.OperationalInsights/workspaces/linkedServices@2020-08-01' = {
  parent: logAnalyticsWorkspace
  name: 'Automation'
  properties: {
    listKeys: listKeys(refId, apiVersion)
  }
}

// module
module exampleModule 'rgModule.bicep' = {
  name: 'exampleModule'
  params: {
    location: location
    fwname: listKeys(refId, apiVersion)
    listKeys: id
  }
}

// output
output subnetId object = listKeys(refId, apiVersion).primaryEndpoints.blob

output lateIndexed string = listKeys(refId, apiVersion).keys[env].value

output directIndexed string = listKeys(refId, apiVersion)[sub].dev[var_id]

// namespace az
output namespace object = az.listKeys(refId, apiVersion)
"
  (D [("globals", D [("scope", D [("value", Sv "resourceGroup")])]); ("parameters", D [("uamiId", D [("decorators", PList []); ("type", Sv "object"); ("default", D [("function", D [("type", Sv "list_func"); ("parameters", D [("func_name", Sv "listKeys"); ("resource_identifier", Sv "refId"); ("api_version", Sv "apiVersion")])])])])]); ("variables", D [("uamiId", D [("decorators", PList []); ("value", D [("function", D [("type", Sv "list_func"); ("parameters", D [("func_name", Sv "listKeys"); ("resource_identifier", Sv "refId"); ("api_version", Sv "2020-09-01")])])])])]); ("resources", D [("logAnalyticsAutomation", D [("decorators", PList []); ("type", Sv "Microsoft.OperationalInsights/workspaces/linkedServices"); ("api_version", Sv "2020-08-01"); ("existing", PBool false); ("config", D [("parent", Sv "logAnalyticsWorkspace"); ("name", Sv "Automation"); ("properties", D [("listKeys", D [("function", D [("type", Sv "list_func"); ("parameters", D [("func_name", Sv "listKeys"); ("resource_identifier", Sv "refId"); ("api_version", Sv "apiVersion")])])])])])])]); ("modules", D [("exampleModule", D [("decorators", PList []); ("type", Sv "local"); ("detail", D [("full", Sv "rgModule.bicep"); ("path", Sv "rgModule.bicep")]); ("config", D [("name", Sv "exampleModule"); ("params", D [("location", Sv "location"); ("fwname", D [("function", D [("type", Sv "list_func"); ("parameters", D [("func_name", Sv "listKeys"); ("resource_identifier", Sv "refId"); ("api_version", Sv "apiVersion")])])]); ("listKeys", Sv "id")])])])]); ("outputs", D [("subnetId", D [("decorators", PList []); ("type", Sv "object"); ("value", D [("operator", D [("type", Sv "property_accessor"); ("operands", D [("operand_1", D [("function", D [("type", Sv "list_func"); ("parameters", D [("func_name", Sv "listKeys"); ("resource_identifier", Sv "refId"); ("api_version", Sv "apiVersion")])])]); ("operand_2", D [("operator", D [("type", Sv "property_accessor"); ("operands", D [("operand_1", Sv "primaryEndpoints"); ("operand_2", Sv "blob")])])])])])])]); ("lateIndexed", D [("decorators", PList []); ("type", Sv "string"); ("value", D [("operator", D [("type", Sv "property_accessor"); ("operands", D [("operand_1", D [("function", D [("type", Sv "list_func"); ("parameters", D [("func_name", Sv "listKeys"); ("resource_identifier", Sv "refId"); ("api_version", Sv "apiVersion")])])]); ("operand_2", D [("operator", D [("type", Sv "property_accessor"); ("operands", D [("operand_1", D [("operator", D [("type", Sv "index_accessor"); ("operands", D [("operand_1", Sv "keys"); ("operand_2", Sv "env")])])]); ("operand_2", Sv "value")])])])])])])]); ("directIndexed", D [("decorators", PList []); ("type", Sv "string"); ("value", D [("operator", D [("type", Sv "property_accessor"); ("operands", D [("operand_1", D [("operator", D [("type", Sv "index_accessor"); ("operands", D [("operand_1", D [("function", D [("type", Sv "list_func"); ("parameters", D [("func_name", Sv "listKeys"); ("resource_identifier", Sv "refId"); ("api_version", Sv "apiVersion")])])]); ("operand_2", Sv "sub")])])]); ("operand_2", D [("operator", D [("type", Sv "index_accessor"); ("operands", D [("operand_1", Sv "dev"); ("operand_2", Sv "var_id")])])])])])])]); ("namespace", D [("decorators", PList []); ("type", Sv "object"); ("value", D [("function", D [("type", Sv "list_func"); ("parameters", D [("func_name", Sv "listKeys"); ("resource_identifier", Sv "refId"); ("api_version", Sv "apiVersion")])])])])])]) = true.
Proof. vm_compute. reflexivity. Qed.

(** tests/test_function/examples/resource/management_group_resource_id/main.bicep *)
Example ex_test_function_resource_management_group_resource_id : agrees false
"// https://docs.microsoft.com/en-us/azure/azure-resource-manager/bicep/bicep-functions-resource#managementgroupresourceid

// param
param uamiId string = managementGroupResourceId('Microsoft.ManagedIdentity/userAssignedIdentities', 'acdd72a7-3385-48ef-bd42-f606fba81ae7')

// var
var uamiId = managementGroupResourceId('Microsoft.ManagedIdentity/userAssignedIdentities', uami, name)

// resource
resource logAnalyticsAutomation 'Microsoft.OperationalInsights/workspaces/linkedServices@2020-08-01' = {
  parent: logAnalyticsWorkspace
  name: 'Automation'
  properties: {
    managementGroupResourceId: managementGroupResourceId('Microsoft.Automation/automationAccounts', automationAccountName)
  }
}

// module
module exampleModule 'rgModule.bicep' = {
  name: 'exampleModule'
  params: {
    location: location
    fwname: managementGroupResourceId(mi.type, mi.name)
    managementGroupResourceId: id
  }
}

// output
output subnetId string = managementGroupResourceId('Microsoft.Network/virtualNetworks/subnets', vnet.name, subnet1Name)

// namespace az
output namespace object = az.managementGroupResourceId('Microsoft.Automation/automationAccounts', automationAccountName)
"
  (D [("globals", D [("scope", D [("value", Sv "resourceGroup")])]); ("parameters", D [("uamiId", D [("decorators", PList []); ("type", Sv "string"); ("default", D [("function", D [("type", Sv "management_group_resource_id"); ("parameters", D [("resource_type", Sv "Microsoft.ManagedIdentity/userAssignedIdentities"); ("resource_name_1", Sv "acdd72a7-3385-48ef-bd42-f606fba81ae7"); ("resource_name_2", PNone)])])])])]); ("variables", D [("uamiId", D [("decorators", PList []); ("value", D [("function", D [("type", Sv "management_group_resource_id"); ("parameters", D [("resource_type", Sv "Microsoft.ManagedIdentity/userAssignedIdentities"); ("resource_name_1", Sv "uami"); ("resource_name_2", Sv "name")])])])])]); ("resources", D [("logAnalyticsAutomation", D [("decorators", PList []); ("type", Sv "Microsoft.OperationalInsights/workspaces/linkedServices"); ("api_version", Sv "2020-08-01"); ("existing", PBool false); ("config", D [("parent", Sv "logAnalyticsWorkspace"); ("name", Sv "Automation"); ("properties", D [("managementGroupResourceId", D [("function", D [("type", Sv "management_group_resource_id"); ("parameters", D [("resource_type", Sv "Microsoft.Automation/automationAccounts"); ("resource_name_1", Sv "automationAccountName"); ("resource_name_2", PNone)])])])])])])]); ("modules", D [("exampleModule", D [("decorators", PList []); ("type", Sv "local"); ("detail", D [("full", Sv "rgModule.bicep"); ("path", Sv "rgModule.bicep")]); ("config", D [("name", Sv "exampleModule"); ("params", D [("location", Sv "location"); ("fwname", D [("function", D [("type", Sv "management_group_resource_id"); ("parameters", D [("resource_type", D [("operator", D [("type", Sv "property_accessor"); ("operands", D [("operand_1", Sv "mi"); ("operand_2", Sv "type")])])]); ("resource_name_1", D [("operator", D [("type", Sv "property_accessor"); ("operands", D [("operand_1", Sv "mi"); ("operand_2", Sv "name")])])]); ("resource_name_2", PNone)])])]); ("managementGroupResourceId", Sv "id")])])])]); ("outputs", D [("subnetId", D [("decorators", PList []); ("type", Sv "string"); ("value", D [("function", D [("type", Sv "management_group_resource_id"); ("parameters", D [("resource_type", Sv "Microsoft.Network/virtualNetworks/subnets"); ("resource_name_1", D [("operator", D [("type", Sv "property_accessor"); ("operands", D [("operand_1", Sv "vnet"); ("operand_2", Sv "name")])])]); ("resource_name_2", Sv "subnet1Name")])])])]); ("namespace", D [("decorators", PList []); ("type", Sv "object"); ("value", D [("function", D [("type", Sv "management_group_resource_id"); ("parameters", D [("resource_type", Sv "Microsoft.Automation/automationAccounts"); ("resource_name_1", Sv "automationAccountName"); ("resource_name_2", PNone)])])])])])]) = true.
Proof. vm_compute. reflexivity. Qed.

(** tests/test_function/examples/resource/pick_zones/main.bicep *)
Example ex_test_function_resource_pick_zones : agrees false
"// https://docs.microsoft.com/en-us/azure/azure-resource-manager/bicep/bicep-functions-resource#pickzones

// param
param uamiId array = pickZones('Microsoft.Compute', 'virtualMachines', 'westus2')

// var
var uamiId = pickZones('Microsoft.ManagedIdentity', uamiName, location, 2)

// resource
resource logAnalyticsAutomation 'Microsoft.OperationalInsights/workspaces/linkedServices@2020-08-01' = {
  parent: logAnalyticsWorkspace
  name: 'Automation'
  properties: {
    pickZones: pickZones('Microsoft.Automation', automationAccountName, location, zones, offset)
  }
}

// module
module exampleModule 'rgModule.bicep' = {
  name: 'exampleModule'
  params: {
    location: location
    fwname: pickZones(mi.type, mi.name, mi.location)
  }
}

// output
output subnetId array = pickZones('Microsoft.Network', vnet.name, subnet1Name)

// namespace az
output namespace array = az.pickZones('Microsoft.Network', vnet.name, subnet1Name)
"
  (D [("globals", D [("scope", D [("value", Sv "resourceGroup")])]); ("parameters", D [("uamiId", D [("decorators", PList []); ("type", Sv "array"); ("default", D [("function", D [("type", Sv "pick_zones"); ("parameters", D [("provider_namespace", Sv "Microsoft.Compute"); ("resource_type", Sv "virtualMachines"); ("location", Sv "westus2"); ("number_of_zones", PNone); ("offset", PNone)])])])])]); ("variables", D [("uamiId", D [("decorators", PList []); ("value", D [("function", D [("type", Sv "pick_zones"); ("parameters", D [("provider_namespace", Sv "Microsoft.ManagedIdentity"); ("resource_type", Sv "uamiName"); ("location", Sv "location"); ("number_of_zones", PInt (2)); ("offset", PNone)])])])])]); ("resources", D [("logAnalyticsAutomation", D [("decorators", PList []); ("type", Sv "Microsoft.OperationalInsights/workspaces/linkedServices"); ("api_version", Sv "2020-08-01"); ("existing", PBool false); ("config", D [("parent", Sv "logAnalyticsWorkspace"); ("name", Sv "Automation"); ("properties", D [("pickZones", D [("function", D [("type", Sv "pick_zones"); ("parameters", D [("provider_namespace", Sv "Microsoft.Automation"); ("resource_type", Sv "automationAccountName"); ("location", Sv "location"); ("number_of_zones", Sv "zones"); ("offset", Sv "offset")])])])])])])]); ("modules", D [("exampleModule", D [("decorators", PList []); ("type", Sv "local"); ("detail", D [("full", Sv "rgModule.bicep"); ("path", Sv "rgModule.bicep")]); ("config", D [("name", Sv "exampleModule"); ("params", D [("location", Sv "location"); ("fwname", D [("function", D [("type", Sv "pick_zones"); ("parameters", D [("provider_namespace", D [("operator", D [("type", Sv "property_accessor"); ("operands", D [("operand_1", Sv "mi"); ("operand_2", Sv "type")])])]); ("resource_type", D [("operator", D [("type", Sv "property_accessor"); ("operands", D [("operand_1", Sv "mi"); ("operand_2", Sv "name")])])]); ("location", D [("operator", D [("type", Sv "property_accessor"); ("operands", D [("operand_1", Sv "mi"); ("operand_2", Sv "location")])])]); ("number_of_zones", PNone); ("offset", PNone)])])])])])])]); ("outputs", D [("subnetId", D [("decorators", PList []); ("type", Sv "array"); ("value", D [("function", D [("type", Sv "pick_zones"); ("parameters", D [("provider_namespace", Sv "Microsoft.Network"); ("resource_type", D [("operator", D [("type", Sv "property_accessor"); ("operands", D [("operand_1", Sv "vnet"); ("operand_2", Sv "name")])])]); ("location", Sv "subnet1Name"); ("number_of_zones", PNone); ("offset", PNone)])])])]); ("namespace", D [("decorators", PList []); ("type", Sv "array"); ("value", D [("function", D [("type", Sv "pick_zones"); ("parameters", D [("provider_namespace", Sv "Microsoft.Network"); ("resource_type", D [("operator", D [("type", Sv "property_accessor"); ("operands", D [("operand_1", Sv "vnet"); ("operand_2", Sv "name")])])]); ("location", Sv "subnet1Name"); ("number_of_zones", PNone); ("offset", PNone)])])])])])]) = true.
Proof. vm_compute. reflexivity. Qed.

(** tests/test_function/examples/resource/reference/main.bicep *)
Example ex_test_function_resource_reference : agrees false
"// https://docs.microsoft.com/en-us/azure/azure-resource-manager/bicep/bicep-functions-resource#reference

// param
param uamiId object = reference(refId, apiVersion)

// var
var uamiId = reference(refId, '2020-09-01', 'full')

// resource
resource logAnalyticsAutomation 'Microsoft.OperationalInsights/workspaces/linkedServices@2020-08-01' = {
  parent: logAnalyticsWorkspace
  name: 'Automation'
  properties: {
    reference: reference(refId, apiVersion)
  }
}

// module
module exampleModule 'rgModule.bicep' = {
  name: 'exampleModule'
  params: {
    location: location
    fwname: reference(refId, apiVersion)
    reference: id
  }
}

// output
output subnetId object = reference(refId).primaryEndpoints.blob

// namespace az
output namespace object = az.reference(refId)
"
  (D [("globals", D [("scope", D [("value", Sv "resourceGroup")])]); ("parameters", D [("uamiId", D [("decorators", PList []); ("type", Sv "object"); ("default", D [("function", D [("type", Sv "reference"); ("parameters", D [("resource_identifier", Sv "refId"); ("api_version", Sv "apiVersion"); ("full", PNone)])])])])]); ("variables", D [("uamiId", D [("decorators", PList []); ("value", D [("function", D [("type", Sv "reference"); ("parameters", D [("resource_identifier", Sv "refId"); ("api_version", Sv "2020-09-01"); ("full", Sv "full")])])])])]); ("resources", D [("logAnalyticsAutomation", D [("decorators", PList []); ("type", Sv "Microsoft.OperationalInsights/workspaces/linkedServices"); ("api_version", Sv "2020-08-01"); ("existing", PBool false); ("config", D [("parent", Sv "logAnalyticsWorkspace"); ("name", Sv "Automation"); ("properties", D [("reference", D [("function", D [("type", Sv "reference"); ("parameters", D [("resource_identifier", Sv "refId"); ("api_version", Sv "apiVersion"); ("full", PNone)])])])])])])]); ("modules", D [("exampleModule", D [("decorators", PList []); ("type", Sv "local"); ("detail", D [("full", Sv "rgModule.bicep"); ("path", Sv "rgModule.bicep")]); ("config", D [("name", Sv "exampleModule"); ("params", D [("location", Sv "location"); ("fwname", D [("function", D [("type", Sv "reference"); ("parameters", D [("resource_identifier", Sv "refId"); ("api_version", Sv "apiVersion"); ("full", PNone)])])]); ("reference", Sv "id")])])])]); ("outputs", D [("subnetId", D [("decorators", PList []); ("type", Sv "object"); ("value", D [("operator", D [("type", Sv "property_accessor"); ("operands", D [("operand_1", D [("function", D [("type", Sv "reference"); ("parameters", D [("resource_identifier", Sv "refId"); ("api_version", PNone); ("full", PNone)])])]); ("operand_2", D [("operator", D [("type", Sv "property_accessor"); ("operands", D [("operand_1", Sv "primaryEndpoints"); ("operand_2", Sv "blob")])])])])])])]); ("namespace", D [("decorators", PList []); ("type", Sv "object"); ("value", D [("function", D [("type", Sv "reference"); ("parameters", D [("resource_identifier", Sv "refId"); ("api_version", PNone); ("full", PNone)])])])])])]) = true.
Proof. vm_compute. reflexivity. Qed.

(** tests/test_function/examples/resource/resource_id/main.bicep *)
Example ex_test_function_resource_resource_id : agrees false
"// https://docs.microsoft.com/en-us/azure/azure-resource-manager/bicep/bicep-functions-resource#resourceid

// param
param uamiId string = resourceId('Microsoft.ManagedIdentity/userAssignedIdentities', uamiName)

// var
var uamiId = resourceId(subId, rgName, 'Microsoft.ManagedIdentity/userAssignedIdentities', uamiName)

// resource
resource logAnalyticsAutomation 'Microsoft.OperationalInsights/workspaces/linkedServices@2020-08-01' = {
  parent: logAnalyticsWorkspace
  name: 'Automation'
  properties: {
    resourceId: resourceId('Microsoft.Automation/automationAccounts', automationAccountName)
  }
}

// module
module exampleModule 'rgModule.bicep' = {
  name: 'exampleModule'
  params: {
    location: location
    fwname: resourceId(mi.type, mi.name)
  }
}

// output
output subnetId string = resourceId(
  subId, rgName, 'Microsoft.Network/virtualNetworks/subnets',
  vnet.name, subnet1Name, rangeName, ipName
)

// namespace az
output namespace object = az.resourceId('Microsoft.Automation/automationAccounts', automationAccountName)
"
  (D [("globals", D [("scope", D [("value", Sv "resourceGroup")])]); ("parameters", D [("uamiId", D [("decorators", PList []); ("type", Sv "string"); ("default", D [("function", D [("type", Sv "resource_id"); ("parameters", D [("resource_type", Sv "Microsoft.ManagedIdentity/userAssignedIdentities"); ("resource_name_1", Sv "uamiName"); ("resource_name_2", PNone); ("resource_group_name", PNone); ("subscription_id", PNone)])])])])]); ("variables", D [("uamiId", D [("decorators", PList []); ("value", D [("function", D [("type", Sv "resource_id"); ("parameters", D [("resource_type", Sv "rgName"); ("resource_name_1", Sv "Microsoft.ManagedIdentity/userAssignedIdentities"); ("resource_name_2", Sv "uamiName"); ("resource_group_name", Sv "subId"); ("subscription_id", PNone)])])])])]); ("resources", D [("logAnalyticsAutomation", D [("decorators", PList []); ("type", Sv "Microsoft.OperationalInsights/workspaces/linkedServices"); ("api_version", Sv "2020-08-01"); ("existing", PBool false); ("config", D [("parent", Sv "logAnalyticsWorkspace"); ("name", Sv "Automation"); ("properties", D [("resourceId", D [("function", D [("type", Sv "resource_id"); ("parameters", D [("resource_type", Sv "Microsoft.Automation/automationAccounts"); ("resource_name_1", Sv "automationAccountName"); ("resource_name_2", PNone); ("resource_group_name", PNone); ("subscription_id", PNone)])])])])])])]); ("modules", D [("exampleModule", D [("decorators", PList []); ("type", Sv "local"); ("detail", D [("full", Sv "rgModule.bicep"); ("path", Sv "rgModule.bicep")]); ("config", D [("name", Sv "exampleModule"); ("params", D [("location", Sv "location"); ("fwname", D [("function", D [("type", Sv "resource_id"); ("parameters", D [("resource_type", D [("operator", D [("type", Sv "property_accessor"); ("operands", D [("operand_1", Sv "mi"); ("operand_2", Sv "type")])])]); ("resource_name_1", D [("operator", D [("type", Sv "property_accessor"); ("operands", D [("operand_1", Sv "mi"); ("operand_2", Sv "name")])])]); ("resource_name_2", PNone); ("resource_group_name", PNone); ("subscription_id", PNone)])])])])])])]); ("outputs", D [("subnetId", D [("decorators", PList []); ("type", Sv "string"); ("value", D [("function", D [("type", Sv "resource_id"); ("parameters", D [("resource_type", Sv "Microsoft.Network/virtualNetworks/subnets"); ("resource_name_1", D [("operator", D [("type", Sv "property_accessor"); ("operands", D [("operand_1", Sv "vnet"); ("operand_2", Sv "name")])])]); ("resource_name_2", Sv "subnet1Name"); ("resource_group_name", Sv "rgName"); ("resource_name_3", Sv "rangeName"); ("resource_name_4", Sv "ipName"); ("subscription_id", Sv "subId")])])])]); ("namespace", D [("decorators", PList []); ("type", Sv "object"); ("value", D [("function", D [("type", Sv "resource_id"); ("parameters", D [("resource_type", Sv "Microsoft.Automation/automationAccounts"); ("resource_name_1", Sv "automationAccountName"); ("resource_name_2", PNone); ("resource_group_name", PNone); ("subscription_id", PNone)])])])])])]) = true.
Proof. vm_compute. reflexivity. Qed.

(** tests/test_function/examples/resource/subscription_resource_id/main.bicep *)
Example ex_test_function_resource_subscription_resource_id : agrees false
"// https://docs.microsoft.com/en-us/azure/azure-resource-manager/bicep/bicep-functions-resource#subscriptionresourceid

// param
param uamiId string = subscriptionResourceId('Microsoft.ManagedIdentity/userAssignedIdentities', 'acdd72a7-3385-48ef-bd42-f606fba81ae7')

// var
var uamiId = subscriptionResourceId('Microsoft.ManagedIdentity/userAssignedIdentities', uami, name)

// resource
resource logAnalyticsAutomation 'Microsoft.OperationalInsights/workspaces/linkedServices@2020-08-01' = {
  parent: logAnalyticsWorkspace
  name: 'Automation'
  properties: {
    subscriptionResourceId: subscriptionResourceId('Microsoft.Automation/automationAccounts', automationAccountName)
  }
}

// module
module exampleModule 'rgModule.bicep' = {
  name: 'exampleModule'
  params: {
    location: location
    fwname: subscriptionResourceId(mi.type, mi.name)
    subscriptionResourceId: id
  }
}

// output
output subnetId string = subscriptionResourceId(subId, 'Microsoft.Network/virtualNetworks/subnets', vnet.name, subnet1Name)

// namespace az
output namespace object = az.subscriptionResourceId('Microsoft.Automation/automationAccounts', automationAccountName)
"
  (D [("globals", D [("scope", D [("value", Sv "resourceGroup")])]); ("parameters", D [("uamiId", D [("decorators", PList []); ("type", Sv "string"); ("default", D [("function", D [("type", Sv "subscription_resource_id"); ("parameters", D [("resource_type", Sv "Microsoft.ManagedIdentity/userAssignedIdentities"); ("resource_name_1", Sv "acdd72a7-3385-48ef-bd42-f606fba81ae7"); ("resource_name_2", PNone); ("subscription_id", PNone)])])])])]); ("variables", D [("uamiId", D [("decorators", PList []); ("value", D [("function", D [("type", Sv "subscription_resource_id"); ("parameters", D [("resource_type", Sv "Microsoft.ManagedIdentity/userAssignedIdentities"); ("resource_name_1", Sv "uami"); ("resource_name_2", Sv "name"); ("subscription_id", PNone)])])])])]); ("resources", D [("logAnalyticsAutomation", D [("decorators", PList []); ("type", Sv "Microsoft.OperationalInsights/workspaces/linkedServices"); ("api_version", Sv "2020-08-01"); ("existing", PBool false); ("config", D [("parent", Sv "logAnalyticsWorkspace"); ("name", Sv "Automation"); ("properties", D [("subscriptionResourceId", D [("function", D [("type", Sv "subscription_resource_id"); ("parameters", D [("resource_type", Sv "Microsoft.Automation/automationAccounts"); ("resource_name_1", Sv "automationAccountName"); ("resource_name_2", PNone); ("subscription_id", PNone)])])])])])])]); ("modules", D [("exampleModule", D [("decorators", PList []); ("type", Sv "local"); ("detail", D [("full", Sv "rgModule.bicep"); ("path", Sv "rgModule.bicep")]); ("config", D [("name", Sv "exampleModule"); ("params", D [("location", Sv "location"); ("fwname", D [("function", D [("type", Sv "subscription_resource_id"); ("parameters", D [("resource_type", D [("operator", D [("type", Sv "property_accessor"); ("operands", D [("operand_1", Sv "mi"); ("operand_2", Sv "type")])])]); ("resource_name_1", D [("operator", D [("type", Sv "property_accessor"); ("operands", D [("operand_1", Sv "mi"); ("operand_2", Sv "name")])])]); ("resource_name_2", PNone); ("subscription_id", PNone)])])]); ("subscriptionResourceId", Sv "id")])])])]); ("outputs", D [("subnetId", D [("decorators", PList []); ("type", Sv "string"); ("value", D [("function", D [("type", Sv "subscription_resource_id"); ("parameters", D [("resource_type", Sv "Microsoft.Network/virtualNetworks/subnets"); ("resource_name_1", D [("operator", D [("type", Sv "property_accessor"); ("operands", D [("operand_1", Sv "vnet"); ("operand_2", Sv "name")])])]); ("resource_name_2", Sv "subnet1Name"); ("subscription_id", Sv "subId")])])])]); ("namespace", D [("decorators", PList []); ("type", Sv "object"); ("value", D [("function", D [("type", Sv "subscription_resource_id"); ("parameters", D [("resource_type", Sv "Microsoft.Automation/automationAccounts"); ("resource_name_1", Sv "automationAccountName"); ("resource_name_2", PNone); ("subscription_id", PNone)])])])])])]) = true.
Proof. vm_compute. reflexivity. Qed.

(** tests/test_function/examples/resource/tenant_resource_id/main.bicep *)
Example ex_test_function_resource_tenant_resource_id : agrees false
"// https://docs.microsoft.com/en-us/azure/azure-resource-manager/bicep/bicep-functions-resource#tenantresourceid

// param
param uamiId string = tenantResourceId('Microsoft.ManagedIdentity/userAssignedIdentities', 'acdd72a7-3385-48ef-bd42-f606fba81ae7')

// var
var uamiId = tenantResourceId('Microsoft.ManagedIdentity/userAssignedIdentities', uami, name)

// resource
resource logAnalyticsAutomation 'Microsoft.OperationalInsights/workspaces/linkedServices@2020-08-01' = {
  parent: logAnalyticsWorkspace
  name: 'Automation'
  properties: {
    tenantResourceId: tenantResourceId('Microsoft.Automation/automationAccounts', automationAccountName)
  }
}

// module
module exampleModule 'rgModule.bicep' = {
  name: 'exampleModule'
  params: {
    location: location
    fwname: tenantResourceId(mi.type, mi.name)
    tenantResourceId: id
  }
}

// output
output subnetId string = tenantResourceId('Microsoft.Network/virtualNetworks/subnets', vnet.name, subnet1Name)

// namespace az
output namespace object = az.tenantResourceId('Microsoft.Automation/automationAccounts', automationAccountName)
"
  (D [("globals", D [("scope", D [("value", Sv "resourceGroup")])]); ("parameters", D [("uamiId", D [("decorators", PList []); ("type", Sv "string"); ("default", D [("function", D [("type", Sv "tenant_resource_id"); ("parameters", D [("resource_type", Sv "Microsoft.ManagedIdentity/userAssignedIdentities"); ("resource_name_1", Sv "acdd72a7-3385-48ef-bd42-f606fba81ae7"); ("resource_name_2", PNone)])])])])]); ("variables", D [("uamiId", D [("decorators", PList []); ("value", D [("function", D [("type", Sv "tenant_resource_id"); ("parameters", D [("resource_type", Sv "Microsoft.ManagedIdentity/userAssignedIdentities"); ("resource_name_1", Sv "uami"); ("resource_name_2", Sv "name")])])])])]); ("resources", D [("logAnalyticsAutomation", D [("decorators", PList []); ("type", Sv "Microsoft.OperationalInsights/workspaces/linkedServices"); ("api_version", Sv "2020-08-01"); ("existing", PBool false); ("config", D [("parent", Sv "logAnalyticsWorkspace"); ("name", Sv "Automation"); ("properties", D [("tenantResourceId", D [("function", D [("type", Sv "tenant_resource_id"); ("parameters", D [("resource_type", Sv "Microsoft.Automation/automationAccounts"); ("resource_name_1", Sv "automationAccountName"); ("resource_name_2", PNone)])])])])])])]); ("modules", D [("exampleModule", D [("decorators", PList []); ("type", Sv "local"); ("detail", D [("full", Sv "rgModule.bicep"); ("path", Sv "rgModule.bicep")]); ("config", D [("name", Sv "exampleModule"); ("params", D [("location", Sv "location"); ("fwname", D [("function", D [("type", Sv "tenant_resource_id"); ("parameters", D [("resource_type", D [("operator", D [("type", Sv "property_accessor"); ("operands", D [("operand_1", Sv "mi"); ("operand_2", Sv "type")])])]); ("resource_name_1", D [("operator", D [("type", Sv "property_accessor"); ("operands", D [("operand_1", Sv "mi"); ("operand_2", Sv "name")])])]); ("resource_name_2", PNone)])])]); ("tenantResourceId", Sv "id")])])])]); ("outputs", D [("subnetId", D [("decorators", PList []); ("type", Sv "string"); ("value", D [("function", D [("type", Sv "tenant_resource_id"); ("parameters", D [("resource_type", Sv "Microsoft.Network/virtualNetworks/subnets"); ("resource_name_1", D [("operator", D [("type", Sv "property_accessor"); ("operands", D [("operand_1", Sv "vnet"); ("operand_2", Sv "name")])])]); ("resource_name_2", Sv "subnet1Name")])])])]); ("namespace", D [("decorators", PList []); ("type", Sv "object"); ("value", D [("function", D [("type", Sv "tenant_resource_id"); ("parameters", D [("resource_type", Sv "Microsoft.Automation/automationAccounts"); ("resource_name_1", Sv "automationAccountName"); ("resource_name_2", PNone)])])])])])]) = true.
Proof. vm_compute. reflexivity. Qed.

(** tests/test_function/examples/scope/management_group/main.bicep *)
Example ex_test_function_scope_management_group : agrees false
"// https://docs.microsoft.com/en-us/azure/azure-resource-manager/bicep/bicep-functions-scope#managementgroup

// param
param paramObject object = managementGroup()

// var
var id = managementGroup().id

// resource
resource managedidentity 'Microsoft.ManagedIdentity/userAssignedIdentities@2018-11-30' = {
  name: uamiName
  id: managementGroup().id
}

// module (scope setting)
module exampleModule 'rgModule.bicep' = {
  name: 'exampleModule'
  scope: managementGroup('/providers/Microsoft.Management/managementGroups/examplemg1')
}

// output
output subscriptionOutput object = managementGroup()

// namespace az
output namespace object = az.managementGroup()
"
  (D [("globals", D [("scope", D [("value", Sv "resourceGroup")])]); ("parameters", D [("paramObject", D [("decorators", PList []); ("type", Sv "object"); ("default", D [("function", D [("type", Sv "management_group"); ("parameters", D [("identifier", PNone)])])])])]); ("variables", D [("id", D [("decorators", PList []); ("value", D [("operator", D [("type", Sv "property_accessor"); ("operands", D [("operand_1", D [("function", D [("type", Sv "management_group"); ("parameters", D [("identifier", PNone)])])]); ("operand_2", Sv "id")])])])])]); ("resources", D [("managedidentity", D [("decorators", PList []); ("type", Sv "Microsoft.ManagedIdentity/userAssignedIdentities"); ("api_version", Sv "2018-11-30"); ("existing", PBool false); ("config", D [("name", Sv "uamiName"); ("id", D [("operator", D [("type", Sv "property_accessor"); ("operands", D [("operand_1", D [("function", D [("type", Sv "management_group"); ("parameters", D [("identifier", PNone)])])]); ("operand_2", Sv "id")])])])])])]); ("modules", D [("exampleModule", D [("decorators", PList []); ("type", Sv "local"); ("detail", D [("full", Sv "rgModule.bicep"); ("path", Sv "rgModule.bicep")]); ("config", D [("name", Sv "exampleModule"); ("scope", D [("function", D [("type", Sv "management_group"); ("parameters", D [("identifier", Sv "/providers/Microsoft.Management/managementGroups/examplemg1")])])])])])]); ("outputs", D [("subscriptionOutput", D [("decorators", PList []); ("type", Sv "object"); ("value", D [("function", D [("type", Sv "management_group"); ("parameters", D [("identifier", PNone)])])])]); ("namespace", D [("decorators", PList []); ("type", Sv "object"); ("value", D [("function", D [("type", Sv "management_group"); ("parameters", D [("identifier", PNone)])])])])])]) = true.
Proof. vm_compute. reflexivity. Qed.

(** tests/test_function/examples/scope/resource_group/main.bicep *)
Example ex_test_function_scope_resource_group : agrees false
"// https://docs.microsoft.com/en-us/azure/azure-resource-manager/bicep/bicep-functions-scope#resourcegroup

// param
param paramObject object = resourceGroup()

// var
var resourceGroupName = resourceGroup().name

// resource
resource managedidentity 'Microsoft.ManagedIdentity/userAssignedIdentities@2018-11-30' = {
  name: uamiName
  location: resourceGroup().location
}

// module (scope setting)
module exampleModule 'rgModule.bicep' = {
  name: 'exampleModule'
  scope: resourceGroup(resourceGroupName)
}

module exampleModuleSub 'rgModule.bicep' = {
  name: 'exampleModule'
  scope: resourceGroup(subscriptionId, resourceGroupName)
}

// output
output resourceGroupOutput object = resourceGroup()

// namespace az
output namespace object = az.resourceGroup()
"
  (D [("globals", D [("scope", D [("value", Sv "resourceGroup")])]); ("parameters", D [("paramObject", D [("decorators", PList []); ("type", Sv "object"); ("default", D [("function", D [("type", Sv "resource_group"); ("parameters", D [("resource_group_name", PNone); ("subscription_id", PNone)])])])])]); ("variables", D [("resourceGroupName", D [("decorators", PList []); ("value", D [("operator", D [("type", Sv "property_accessor"); ("operands", D [("operand_1", D [("function", D [("type", Sv "resource_group"); ("parameters", D [("resource_group_name", PNone); ("subscription_id", PNone)])])]); ("operand_2", Sv "name")])])])])]); ("resources", D [("managedidentity", D [("decorators", PList []); ("type", Sv "Microsoft.ManagedIdentity/userAssignedIdentities"); ("api_version", Sv "2018-11-30"); ("existing", PBool false); ("config", D [("name", Sv "uamiName"); ("location", D [("operator", D [("type", Sv "property_accessor"); ("operands", D [("operand_1", D [("function", D [("type", Sv "resource_group"); ("parameters", D [("resource_group_name", PNone); ("subscription_id", PNone)])])]); ("operand_2", Sv "location")])])])])])]); ("modules", D [("exampleModule", D [("decorators", PList []); ("type", Sv "local"); ("detail", D [("full", Sv "rgModule.bicep"); ("path", Sv "rgModule.bicep")]); ("config", D [("name", Sv "exampleModule"); ("scope", D [("function", D [("type", Sv "resource_group"); ("parameters", D [("resource_group_name", Sv "resourceGroupName"); ("subscription_id", PNone)])])])])]); ("exampleModuleSub", D [("decorators", PList []); ("type", Sv "local"); ("detail", D [("full", Sv "rgModule.bicep"); ("path", Sv "rgModule.bicep")]); ("config", D [("name", Sv "exampleModule"); ("scope", D [("function", D [("type", Sv "resource_group"); ("parameters", D [("resource_group_name", Sv "resourceGroupName"); ("subscription_id", Sv "subscriptionId")])])])])])]); ("outputs", D [("resourceGroupOutput", D [("decorators", PList []); ("type", Sv "object"); ("value", D [("function", D [("type", Sv "resource_group"); ("parameters", D [("resource_group_name", PNone); ("subscription_id", PNone)])])])]); ("namespace", D [("decorators", PList []); ("type", Sv "object"); ("value", D [("function", D [("type", Sv "resource_group"); ("parameters", D [("resource_group_name", PNone); ("subscription_id", PNone)])])])])])]) = true.
Proof. vm_compute. reflexivity. Qed.

(** tests/test_function/examples/scope/subscription/main.bicep *)
Example ex_test_function_scope_subscription : agrees false
"// https://docs.microsoft.com/en-us/azure/azure-resource-manager/bicep/bicep-functions-scope#subscription

// param
param paramObject object = subscription()

// var
var subId = subscription().id

// resource
resource managedidentity 'Microsoft.ManagedIdentity/userAssignedIdentities@2018-11-30' = {
  name: subscription
  subId: subscription().subscriptionId
}

// module (scope setting)
module exampleModule 'rgModule.bicep' = {
  name: 'exampleModule'
  scope: subscription(subscriptionId)
}

// output
output subscriptionOutput object = subscription()

// namespace az
output namespace object = az.subscription()
"
  (D [("globals", D [("scope", D [("value", Sv "resourceGroup")])]); ("parameters", D [("paramObject", D [("decorators", PList []); ("type", Sv "object"); ("default", D [("function", D [("type", Sv "subscription"); ("parameters", D [("subscription_id", PNone)])])])])]); ("variables", D [("subId", D [("decorators", PList []); ("value", D [("operator", D [("type", Sv "property_accessor"); ("operands", D [("operand_1", D [("function", D [("type", Sv "subscription"); ("parameters", D [("subscription_id", PNone)])])]); ("operand_2", Sv "id")])])])])]); ("resources", D [("managedidentity", D [("decorators", PList []); ("type", Sv "Microsoft.ManagedIdentity/userAssignedIdentities"); ("api_version", Sv "2018-11-30"); ("existing", PBool false); ("config", D [("name", Sv "subscription"); ("subId", D [("operator", D [("type", Sv "property_accessor"); ("operands", D [("operand_1", D [("function", D [("type", Sv "subscription"); ("parameters", D [("subscription_id", PNone)])])]); ("operand_2", Sv "subscriptionId")])])])])])]); ("modules", D [("exampleModule", D [("decorators", PList []); ("type", Sv "local"); ("detail", D [("full", Sv "rgModule.bicep"); ("path", Sv "rgModule.bicep")]); ("config", D [("name", Sv "exampleModule"); ("scope", D [("function", D [("type", Sv "subscription"); ("parameters", D [("subscription_id", Sv "subscriptionId")])])])])])]); ("outputs", D [("subscriptionOutput", D [("decorators", PList []); ("type", Sv "object"); ("value", D [("function", D [("type", Sv "subscription"); ("parameters", D [("subscription_id", PNone)])])])]); ("namespace", D [("decorators", PList []); ("type", Sv "object"); ("value", D [("function", D [("type", Sv "subscription"); ("parameters", D [("subscription_id", PNone)])])])])])]) = true.
Proof. vm_compute. reflexivity. Qed.

(** tests/test_function/examples/scope/tenant/main.bicep *)
Example ex_test_function_scope_tenant : agrees false
"// https://docs.microsoft.com/en-us/azure/azure-resource-manager/bicep/bicep-functions-scope#tenant

// param
param paramObject object = tenant()

// var
var id = tenant().id

// resource
resource managedidentity 'Microsoft.ManagedIdentity/userAssignedIdentities@2018-11-30' = {
  name: uamiName
  id: tenant().id
}

// module (scope setting)
module exampleModule 'rgModule.bicep' = {
  name: 'exampleModule'
  scope: tenant()
}

// output
output subscriptionOutput object = tenant()

// namespace az
output namespace object = az.tenant()
"
  (D [("globals", D [("scope", D [("value", Sv "resourceGroup")])]); ("parameters", D [("paramObject", D [("decorators", PList []); ("type", Sv "object"); ("default", D [("function", D [("type", Sv "tenant")])])])]); ("variables", D [("id", D [("decorators", PList []); ("value", D [("operator", D [("type", Sv "property_accessor"); ("operands", D [("operand_1", D [("function", D [("type", Sv "tenant")])]); ("operand_2", Sv "id")])])])])]); ("resources", D [("managedidentity", D [("decorators", PList []); ("type", Sv "Microsoft.ManagedIdentity/userAssignedIdentities"); ("api_version", Sv "2018-11-30"); ("existing", PBool false); ("config", D [("name", Sv "uamiName"); ("id", D [("operator", D [("type", Sv "property_accessor"); ("operands", D [("operand_1", D [("function", D [("type", Sv "tenant")])]); ("operand_2", Sv "id")])])])])])]); ("modules", D [("exampleModule", D [("decorators", PList []); ("type", Sv "local"); ("detail", D [("full", Sv "rgModule.bicep"); ("path", Sv "rgModule.bicep")]); ("config", D [("name", Sv "exampleModule"); ("scope", D [("function", D [("type", Sv "tenant")])])])])]); ("outputs", D [("subscriptionOutput", D [("decorators", PList []); ("type", Sv "object"); ("value", D [("function", D [("type", Sv "tenant")])])]); ("namespace", D [("decorators", PList []); ("type", Sv "object"); ("value", D [("function", D [("type", Sv "tenant")])])])])]) = true.
Proof. vm_compute. reflexivity. Qed.

(** tests/test_function/examples/string/base64/main.bicep *)
Example ex_test_function_string_base64 : agrees false
"// https://docs.microsoft.com/en-us/azure/azure-resource-manager/bicep/bicep-functions-string#base64

// param
param roleAssignmentName string = base64(principalId)

// var
var varStr = base64('something')

// resource
resource assignment 'Microsoft.Authorization/roleAssignments@2020-04-01-preview' = {
  name: base64('123')
  properties: {
    roleDefinitionId: definition.id
    principalId: principalId
  }
}

// output
output ftpUser string = base64(site.properties)

// namespace sys
output namespace string = sys.base64(site.properties)
"
  (D [("globals", D [("scope", D [("value", Sv "resourceGroup")])]); ("parameters", D [("roleAssignmentName", D [("decorators", PList []); ("type", Sv "string"); ("default", D [("function", D [("type", Sv "base64"); ("parameters", D [("input_string", Sv "principalId")])])])])]); ("variables", D [("varStr", D [("decorators", PList []); ("value", D [("function", D [("type", Sv "base64"); ("parameters", D [("input_string", Sv "something")])])])])]); ("resources", D [("assignment", D [("decorators", PList []); ("type", Sv "Microsoft.Authorization/roleAssignments"); ("api_version", Sv "2020-04-01-preview"); ("existing", PBool false); ("config", D [("name", D [("function", D [("type", Sv "base64"); ("parameters", D [("input_string", Sv "123")])])]); ("properties", D [("roleDefinitionId", D [("operator", D [("type", Sv "property_accessor"); ("operands", D [("operand_1", Sv "definition"); ("operand_2", Sv "id")])])]); ("principalId", Sv "principalId")])])])]); ("outputs", D [("ftpUser", D [("decorators", PList []); ("type", Sv "string"); ("value", D [("function", D [("type", Sv "base64"); ("parameters", D [("input_string", D [("operator", D [("type", Sv "property_accessor"); ("operands", D [("operand_1", Sv "site"); ("operand_2", Sv "properties")])])])])])])]); ("namespace", D [("decorators", PList []); ("type", Sv "string"); ("value", D [("function", D [("type", Sv "base64"); ("parameters", D [("input_string", D [("operator", D [("type", Sv "property_accessor"); ("operands", D [("operand_1", Sv "site"); ("operand_2", Sv "properties")])])])])])])])])]) = true.
Proof. vm_compute. reflexivity. Qed.

(** tests/test_function/examples/string/base64_to_json/main.bicep *)
Example ex_test_function_string_base64_to_json : agrees false
"// https://docs.microsoft.com/en-us/azure/azure-resource-manager/bicep/bicep-functions-string#base64tojson

// param
param roleAssignmentName object = base64ToJson(principalId)

// var
var varStr = base64ToJson('J3tcJ29uZVwnOiBcJ2FcJ30n')

// resource
resource assignment 'Microsoft.Authorization/roleAssignments@2020-04-01-preview' = {
  name: base64ToJson('J3tcJ29uZVwnOiBcJ2FcJ30n')
  properties: {
    roleDefinitionId: definition.id
    principalId: principalId
  }
}

// output
output ftpUser object = base64ToJson(site.properties)

// namespace sys
output namespace object = sys.base64ToJson(site.properties)
"
  (D [("globals", D [("scope", D [("value", Sv "resourceGroup")])]); ("parameters", D [("roleAssignmentName", D [("decorators", PList []); ("type", Sv "object"); ("default", D [("function", D [("type", Sv "base64_to_json"); ("parameters", D [("base64_value", Sv "principalId")])])])])]); ("variables", D [("varStr", D [("decorators", PList []); ("value", D [("function", D [("type", Sv "base64_to_json"); ("parameters", D [("base64_value", Sv "J3tcJ29uZVwnOiBcJ2FcJ30n")])])])])]); ("resources", D [("assignment", D [("decorators", PList []); ("type", Sv "Microsoft.Authorization/roleAssignments"); ("api_version", Sv "2020-04-01-preview"); ("existing", PBool false); ("config", D [("name", D [("function", D [("type", Sv "base64_to_json"); ("parameters", D [("base64_value", Sv "J3tcJ29uZVwnOiBcJ2FcJ30n")])])]); ("properties", D [("roleDefinitionId", D [("operator", D [("type", Sv "property_accessor"); ("operands", D [("operand_1", Sv "definition"); ("operand_2", Sv "id")])])]); ("principalId", Sv "principalId")])])])]); ("outputs", D [("ftpUser", D [("decorators", PList []); ("type", Sv "object"); ("value", D [("function", D [("type", Sv "base64_to_json"); ("parameters", D [("base64_value", D [("operator", D [("type", Sv "property_accessor"); ("operands", D [("operand_1", Sv "site"); ("operand_2", Sv "properties")])])])])])])]); ("namespace", D [("decorators", PList []); ("type", Sv "object"); ("value", D [("function", D [("type", Sv "base64_to_json"); ("parameters", D [("base64_value", D [("operator", D [("type", Sv "property_accessor"); ("operands", D [("operand_1", Sv "site"); ("operand_2", Sv "properties")])])])])])])])])]) = true.
Proof. vm_compute. reflexivity. Qed.

(** tests/test_function/examples/string/base64_to_string/main.bicep *)
Example ex_test_function_string_base64_to_string : agrees false
"// https://docs.microsoft.com/en-us/azure/azure-resource-manager/bicep/bicep-functions-string#base64tostring

// param
param roleAssignmentName string = base64ToString(principalId)

// var
var varStr = base64ToString('something')

// resource
resource assignment 'Microsoft.Authorization/roleAssignments@2020-04-01-preview' = {
  name: base64ToString('123')
  properties: {
    roleDefinitionId: definition.id
    principalId: principalId
  }
}

// output
output ftpUser string = base64ToString(site.properties)

// namespace sys
output namespace string = sys.base64ToString(site.properties)
"
  (D [("globals", D [("scope", D [("value", Sv "resourceGroup")])]); ("parameters", D [("roleAssignmentName", D [("decorators", PList []); ("type", Sv "string"); ("default", D [("function", D [("type", Sv "base64_to_string"); ("parameters", D [("base64_value", Sv "principalId")])])])])]); ("variables", D [("varStr", D [("decorators", PList []); ("value", D [("function", D [("type", Sv "base64_to_string"); ("parameters", D [("base64_value", Sv "something")])])])])]); ("resources", D [("assignment", D [("decorators", PList []); ("type", Sv "Microsoft.Authorization/roleAssignments"); ("api_version", Sv "2020-04-01-preview"); ("existing", PBool false); ("config", D [("name", D [("function", D [("type", Sv "base64_to_string"); ("parameters", D [("base64_value", Sv "123")])])]); ("properties", D [("roleDefinitionId", D [("operator", D [("type", Sv "property_accessor"); ("operands", D [("operand_1", Sv "definition"); ("operand_2", Sv "id")])])]); ("principalId", Sv "principalId")])])])]); ("outputs", D [("ftpUser", D [("decorators", PList []); ("type", Sv "string"); ("value", D [("function", D [("type", Sv "base64_to_string"); ("parameters", D [("base64_value", D [("operator", D [("type", Sv "property_accessor"); ("operands", D [("operand_1", Sv "site"); ("operand_2", Sv "properties")])])])])])])]); ("namespace", D [("decorators", PList []); ("type", Sv "string"); ("value", D [("function", D [("type", Sv "base64_to_string"); ("parameters", D [("base64_value", D [("operator", D [("type", Sv "property_accessor"); ("operands", D [("operand_1", Sv "site"); ("operand_2", Sv "properties")])])])])])])])])]) = true.
Proof. vm_compute. reflexivity. Qed.

(** tests/test_function/examples/string/data_uri/main.bicep *)
Example ex_test_function_string_data_uri : agrees false
"// https://docs.microsoft.com/en-us/azure/azure-resource-manager/bicep/bicep-functions-string#datauri

// param
param roleAssignmentName string = dataUri(principalId)

// var
var varStr = dataUri('something')

// resource
resource assignment 'Microsoft.Authorization/roleAssignments@2020-04-01-preview' = {
  name: dataUri('ONE two Three')
  properties: {
    roleDefinitionId: definition.id
    principalId: principalId
  }
}

// output
output ftpUser string = dataUri(site.properties)

// namespace
output namespace string = sys.dataUri(site.properties)
"
  (D [("globals", D [("scope", D [("value", Sv "resourceGroup")])]); ("parameters", D [("roleAssignmentName", D [("decorators", PList []); ("type", Sv "string"); ("default", D [("function", D [("type", Sv "data_uri"); ("parameters", D [("string_to_convert", Sv "principalId")])])])])]); ("variables", D [("varStr", D [("decorators", PList []); ("value", D [("function", D [("type", Sv "data_uri"); ("parameters", D [("string_to_convert", Sv "something")])])])])]); ("resources", D [("assignment", D [("decorators", PList []); ("type", Sv "Microsoft.Authorization/roleAssignments"); ("api_version", Sv "2020-04-01-preview"); ("existing", PBool false); ("config", D [("name", D [("function", D [("type", Sv "data_uri"); ("parameters", D [("string_to_convert", Sv "ONE two Three")])])]); ("properties", D [("roleDefinitionId", D [("operator", D [("type", Sv "property_accessor"); ("operands", D [("operand_1", Sv "definition"); ("operand_2", Sv "id")])])]); ("principalId", Sv "principalId")])])])]); ("outputs", D [("ftpUser", D [("decorators", PList []); ("type", Sv "string"); ("value", D [("function", D [("type", Sv "data_uri"); ("parameters", D [("string_to_convert", D [("operator", D [("type", Sv "property_accessor"); ("operands", D [("operand_1", Sv "site"); ("operand_2", Sv "properties")])])])])])])]); ("namespace", D [("decorators", PList []); ("type", Sv "string"); ("value", D [("function", D [("type", Sv "data_uri"); ("parameters", D [("string_to_convert", D [("operator", D [("type", Sv "property_accessor"); ("operands", D [("operand_1", Sv "site"); ("operand_2", Sv "properties")])])])])])])])])]) = true.
Proof. vm_compute. reflexivity. Qed.

(** tests/test_function/examples/string/data_uri_to_string/main.bicep *)
Example ex_test_function_string_data_uri_to_string : agrees false
"// https://docs.microsoft.com/en-us/azure/azure-resource-manager/bicep/bicep-functions-string#datauritostring

// param
param roleAssignmentName string = dataUriToString(principalId)

// var
var varStr = dataUriToString('data:;base64,SGVsbG8sIFdvcmxkIQ==')

// resource
resource assignment 'Microsoft.Authorization/roleAssignments@2020-04-01-preview' = {
  name: dataUriToString('data:;base64,SGVsbG8sIFdvcmxkIQ==')
  properties: {
    roleDefinitionId: definition.id
    principalId: principalId
  }
}

// output
output ftpUser string = dataUriToString(site.properties)

// namespace
output namespace string = sys.dataUriToString(site.properties)
"
  (D [("globals", D [("scope", D [("value", Sv "resourceGroup")])]); ("parameters", D [("roleAssignmentName", D [("decorators", PList []); ("type", Sv "string"); ("default", D [("function", D [("type", Sv "data_uri_to_string"); ("parameters", D [("data_uri_to_convert", Sv "principalId")])])])])]); ("variables", D [("varStr", D [("decorators", PList []); ("value", D [("function", D [("type", Sv "data_uri_to_string"); ("parameters", D [("data_uri_to_convert", Sv "data:;base64,SGVsbG8sIFdvcmxkIQ==")])])])])]); ("resources", D [("assignment", D [("decorators", PList []); ("type", Sv "Microsoft.Authorization/roleAssignments"); ("api_version", Sv "2020-04-01-preview"); ("existing", PBool false); ("config", D [("name", D [("function", D [("type", Sv "data_uri_to_string"); ("parameters", D [("data_uri_to_convert", Sv "data:;base64,SGVsbG8sIFdvcmxkIQ==")])])]); ("properties", D [("roleDefinitionId", D [("operator", D [("type", Sv "property_accessor"); ("operands", D [("operand_1", Sv "definition"); ("operand_2", Sv "id")])])]); ("principalId", Sv "principalId")])])])]); ("outputs", D [("ftpUser", D [("decorators", PList []); ("type", Sv "string"); ("value", D [("function", D [("type", Sv "data_uri_to_string"); ("parameters", D [("data_uri_to_convert", D [("operator", D [("type", Sv "property_accessor"); ("operands", D [("operand_1", Sv "site"); ("operand_2", Sv "properties")])])])])])])]); ("namespace", D [("decorators", PList []); ("type", Sv "string"); ("value", D [("function", D [("type", Sv "data_uri_to_string"); ("parameters", D [("data_uri_to_convert", D [("operator", D [("type", Sv "property_accessor"); ("operands", D [("operand_1", Sv "site"); ("operand_2", Sv "properties")])])])])])])])])]) = true.
Proof. vm_compute. reflexivity. Qed.

(** tests/test_function/examples/string/ends_with/main.bicep *)
Example ex_test_function_string_ends_with : agrees false
"// https://docs.microsoft.com/en-us/azure/azure-resource-manager/bicep/bicep-functions-string#endswith

// param
param paramStr bool = endsWith('abcdef', 'ab')

// var
var varstr = endsWith(firstArray, intValue)

// resource
resource identityProvider 'Microsoft.ApiManagement/service/identityProviders@2020-06-01-preview' = {
  name: 'exmple'
  properties: endsWith(firstObject.names, name)
  dependsOn: [
    apiManagementService
  ]
}

// output
output ftpUser bool = endsWith(firstObject, 'some')

// namespace
output namespace bool = sys.endsWith(firstArray, '1')
"
  (D [("globals", D [("scope", D [("value", Sv "resourceGroup")])]); ("parameters", D [("paramStr", D [("decorators", PList []); ("type", Sv "bool"); ("default", D [("function", D [("type", Sv "ends_with"); ("parameters", D [("string_to_search", Sv "abcdef"); ("string_to_find", Sv "ab")])])])])]); ("variables", D [("varstr", D [("decorators", PList []); ("value", D [("function", D [("type", Sv "ends_with"); ("parameters", D [("string_to_search", Sv "firstArray"); ("string_to_find", Sv "intValue")])])])])]); ("resources", D [("identityProvider", D [("decorators", PList []); ("type", Sv "Microsoft.ApiManagement/service/identityProviders"); ("api_version", Sv "2020-06-01-preview"); ("existing", PBool false); ("config", D [("name", Sv "exmple"); ("properties", D [("function", D [("type", Sv "ends_with"); ("parameters", D [("string_to_search", D [("operator", D [("type", Sv "property_accessor"); ("operands", D [("operand_1", Sv "firstObject"); ("operand_2", Sv "names")])])]); ("string_to_find", Sv "name")])])]); ("dependsOn", PList [Sv "apiManagementService"])])])]); ("outputs", D [("ftpUser", D [("decorators", PList []); ("type", Sv "bool"); ("value", D [("function", D [("type", Sv "ends_with"); ("parameters", D [("string_to_search", Sv "firstObject"); ("string_to_find", Sv "some")])])])]); ("namespace", D [("decorators", PList []); ("type", Sv "bool"); ("value", D [("function", D [("type", Sv "ends_with"); ("parameters", D [("string_to_search", Sv "firstArray"); ("string_to_find", Sv "1")])])])])])]) = true.
Proof. vm_compute. reflexivity. Qed.

(** tests/test_function/examples/string/format/main.bicep *)
Example ex_test_function_string_format : agrees false
"// https://docs.microsoft.com/en-us/azure/azure-resource-manager/bicep/bicep-functions-string#format

// param
param paramStr array = format('{0}, {1}. Formatted number: {2:N0}', greeting, name, numberToFormat)

// var
var cpuCores = format(
  '-{0}-',
  greeting
)

// resource
resource identityProvider 'Microsoft.ApiManagement/service/identityProviders@2020-06-01-preview' = {
  name: 'exmple'
  properties: format('{0}, {1}', greeting, name)
  dependsOn: [
    format
  ]
}

// output
output ftpUser object = format('{0}, {1}', greeting, name)

// namespace sys
output namespace array = sys.format('{0}, {1}', greeting, name)
"
  (D [("globals", D [("scope", D [("value", Sv "resourceGroup")])]); ("parameters", D [("paramStr", D [("decorators", PList []); ("type", Sv "array"); ("default", D [("function", D [("type", Sv "format"); ("parameters", D [("format_string", Sv "{0}, {1}. Formatted number: {2:N0}"); ("arg_1", Sv "greeting"); ("arg_2", Sv "name"); ("arg_3", Sv "numberToFormat")])])])])]); ("variables", D [("cpuCores", D [("decorators", PList []); ("value", D [("function", D [("type", Sv "format"); ("parameters", D [("format_string", Sv "-{0}-"); ("arg_1", Sv "greeting")])])])])]); ("resources", D [("identityProvider", D [("decorators", PList []); ("type", Sv "Microsoft.ApiManagement/service/identityProviders"); ("api_version", Sv "2020-06-01-preview"); ("existing", PBool false); ("config", D [("name", Sv "exmple"); ("properties", D [("function", D [("type", Sv "format"); ("parameters", D [("format_string", Sv "{0}, {1}"); ("arg_1", Sv "greeting"); ("arg_2", Sv "name")])])]); ("dependsOn", PList [Sv "format"])])])]); ("outputs", D [("ftpUser", D [("decorators", PList []); ("type", Sv "object"); ("value", D [("function", D [("type", Sv "format"); ("parameters", D [("format_string", Sv "{0}, {1}"); ("arg_1", Sv "greeting"); ("arg_2", Sv "name")])])])]); ("namespace", D [("decorators", PList []); ("type", Sv "array"); ("value", D [("function", D [("type", Sv "format"); ("parameters", D [("format_string", Sv "{0}, {1}"); ("arg_1", Sv "greeting"); ("arg_2", Sv "name")])])])])])]) = true.
Proof. vm_compute. reflexivity. Qed.

(** tests/test_function/examples/string/guid/main.bicep *)
Example ex_test_function_string_guid : agrees false
"// https://docs.microsoft.com/en-us/azure/azure-resource-manager/bicep/bicep-functions-string#guid

// param
param roleAssignmentName string = guid(principalId, roleDefinitionId, rgName)

// var
var varStr = guid('something', 'else')

// resource
resource assignment 'Microsoft.Authorization/roleAssignments@2020-04-01-preview' = {
  name: guid(roleName, principalId)
  properties: {
    roleDefinitionId: definition.id
    principalId: guid
  }
}

// output
output ftpUser string = guid(site.properties)

// namespace sys
output namespace string = sys.guid(site.properties)
"
  (D [("globals", D [("scope", D [("value", Sv "resourceGroup")])]); ("parameters", D [("roleAssignmentName", D [("decorators", PList []); ("type", Sv "string"); ("default", D [("function", D [("type", Sv "guid"); ("parameters", D [("base_string", Sv "principalId"); ("extra_string_1", Sv "roleDefinitionId"); ("extra_string_2", Sv "rgName")])])])])]); ("variables", D [("varStr", D [("decorators", PList []); ("value", D [("function", D [("type", Sv "guid"); ("parameters", D [("base_string", Sv "something"); ("extra_string_1", Sv "else")])])])])]); ("resources", D [("assignment", D [("decorators", PList []); ("type", Sv "Microsoft.Authorization/roleAssignments"); ("api_version", Sv "2020-04-01-preview"); ("existing", PBool false); ("config", D [("name", D [("function", D [("type", Sv "guid"); ("parameters", D [("base_string", Sv "roleName"); ("extra_string_1", Sv "principalId")])])]); ("properties", D [("roleDefinitionId", D [("operator", D [("type", Sv "property_accessor"); ("operands", D [("operand_1", Sv "definition"); ("operand_2", Sv "id")])])]); ("principalId", Sv "guid")])])])]); ("outputs", D [("ftpUser", D [("decorators", PList []); ("type", Sv "string"); ("value", D [("function", D [("type", Sv "guid"); ("parameters", D [("base_string", D [("operator", D [("type", Sv "property_accessor"); ("operands", D [("operand_1", Sv "site"); ("operand_2", Sv "properties")])])])])])])]); ("namespace", D [("decorators", PList []); ("type", Sv "string"); ("value", D [("function", D [("type", Sv "guid"); ("parameters", D [("base_string", D [("operator", D [("type", Sv "property_accessor"); ("operands", D [("operand_1", Sv "site"); ("operand_2", Sv "properties")])])])])])])])])]) = true.
Proof. vm_compute. reflexivity. Qed.

(** tests/test_function/examples/string/index_of/main.bicep *)
Example ex_test_function_string_index_of : agrees false
"// https://docs.microsoft.com/en-us/azure/azure-resource-manager/bicep/bicep-functions-string#indexof

// param
param paramStr int = indexOf('one,two,three', ',')

// var
var varStr = indexOf(administratorAccountUsername, '@')

// resource
resource assignment 'Microsoft.Authorization/roleAssignments@2020-04-01-preview' = {
  name: indexOf(roleName, searchStr)
  properties: {
    roleDefinitionId: definition.id
    principalId: principalId
  }
}

// output
output ftpUser int = indexOf(site.properties, '/')

// namespace sys
output namespace int = sys.indexOf(site.properties, '/')
"
  (D [("globals", D [("scope", D [("value", Sv "resourceGroup")])]); ("parameters", D [("paramStr", D [("decorators", PList []); ("type", Sv "int"); ("default", D [("function", D [("type", Sv "index_of"); ("parameters", D [("string_to_search", Sv "one,two,three"); ("string_to_find", Sv ",")])])])])]); ("variables", D [("varStr", D [("decorators", PList []); ("value", D [("function", D [("type", Sv "index_of"); ("parameters", D [("string_to_search", Sv "administratorAccountUsername"); ("string_to_find", Sv "@")])])])])]); ("resources", D [("assignment", D [("decorators", PList []); ("type", Sv "Microsoft.Authorization/roleAssignments"); ("api_version", Sv "2020-04-01-preview"); ("existing", PBool false); ("config", D [("name", D [("function", D [("type", Sv "index_of"); ("parameters", D [("string_to_search", Sv "roleName"); ("string_to_find", Sv "searchStr")])])]); ("properties", D [("roleDefinitionId", D [("operator", D [("type", Sv "property_accessor"); ("operands", D [("operand_1", Sv "definition"); ("operand_2", Sv "id")])])]); ("principalId", Sv "principalId")])])])]); ("outputs", D [("ftpUser", D [("decorators", PList []); ("type", Sv "int"); ("value", D [("function", D [("type", Sv "index_of"); ("parameters", D [("string_to_search", D [("operator", D [("type", Sv "property_accessor"); ("operands", D [("operand_1", Sv "site"); ("operand_2", Sv "properties")])])]); ("string_to_find", Sv "/")])])])]); ("namespace", D [("decorators", PList []); ("type", Sv "int"); ("value", D [("function", D [("type", Sv "index_of"); ("parameters", D [("string_to_search", D [("operator", D [("type", Sv "property_accessor"); ("operands", D [("operand_1", Sv "site"); ("operand_2", Sv "properties")])])]); ("string_to_find", Sv "/")])])])])])]) = true.
Proof. vm_compute. reflexivity. Qed.

(** tests/test_function/examples/string/join/main.bicep *)
Example ex_test_function_string_join : agrees false
"// https://learn.microsoft.com/en-us/azure/azure-resource-manager/bicep/bicep-functions-string#join

// param
param paramStr string = join(firstArray, delimiter)

// var
var cpuCores = join(firstArray, ',')

// resource
resource identityProvider 'Microsoft.ApiManagement/service/identityProviders@2020-06-01-preview' = {
  name: 'exmple'
  properties: join(firstArray, ';')
  dependsOn: [
    apiManagementService
  ]
}

// output
output ftpUser string = join(firstArray, ',')

// namespace sys
output namespace string = sys.join(firstArray, ',')
"
  (D [("globals", D [("scope", D [("value", Sv "resourceGroup")])]); ("parameters", D [("paramStr", D [("decorators", PList []); ("type", Sv "string"); ("default", D [("function", D [("type", Sv "join"); ("parameters", D [("input_array", Sv "firstArray"); ("delimiter", Sv "delimiter")])])])])]); ("variables", D [("cpuCores", D [("decorators", PList []); ("value", D [("function", D [("type", Sv "join"); ("parameters", D [("input_array", Sv "firstArray"); ("delimiter", Sv ",")])])])])]); ("resources", D [("identityProvider", D [("decorators", PList []); ("type", Sv "Microsoft.ApiManagement/service/identityProviders"); ("api_version", Sv "2020-06-01-preview"); ("existing", PBool false); ("config", D [("name", Sv "exmple"); ("properties", D [("function", D [("type", Sv "join"); ("parameters", D [("input_array", Sv "firstArray"); ("delimiter", Sv ";")])])]); ("dependsOn", PList [Sv "apiManagementService"])])])]); ("outputs", D [("ftpUser", D [("decorators", PList []); ("type", Sv "string"); ("value", D [("function", D [("type", Sv "join"); ("parameters", D [("input_array", Sv "firstArray"); ("delimiter", Sv ",")])])])]); ("namespace", D [("decorators", PList []); ("type", Sv "string"); ("value", D [("function", D [("type", Sv "join"); ("parameters", D [("input_array", Sv "firstArray"); ("delimiter", Sv ",")])])])])])]) = true.
Proof. vm_compute. reflexivity. Qed.

(** tests/test_function/examples/string/last_index_of/main.bicep *)
Example ex_test_function_string_last_index_of : agrees false
"// https://docs.microsoft.com/en-us/azure/azure-resource-manager/bicep/bicep-functions-string#lastindexof

// param
param paramStr int = lastIndexOf('one,two,three', ',')

// var
var varStr = lastIndexOf(administratorAccountUsername, '@')

// resource
resource assignment 'Microsoft.Authorization/roleAssignments@2020-04-01-preview' = {
  name: lastIndexOf(roleName, searchStr)
  properties: {
    roleDefinitionId: definition.id
    principalId: principalId
  }
}

// output
output ftpUser int = lastIndexOf(site.properties, '/')

// namespace sys
output namespace int = sys.lastIndexOf(site.properties, '/')
"
  (D [("globals", D [("scope", D [("value", Sv "resourceGroup")])]); ("parameters", D [("paramStr", D [("decorators", PList []); ("type", Sv "int"); ("default", D [("function", D [("type", Sv "last_index_of"); ("parameters", D [("string_to_search", Sv "one,two,three"); ("string_to_find", Sv ",")])])])])]); ("variables", D [("varStr", D [("decorators", PList []); ("value", D [("function", D [("type", Sv "last_index_of"); ("parameters", D [("string_to_search", Sv "administratorAccountUsername"); ("string_to_find", Sv "@")])])])])]); ("resources", D [("assignment", D [("decorators", PList []); ("type", Sv "Microsoft.Authorization/roleAssignments"); ("api_version", Sv "2020-04-01-preview"); ("existing", PBool false); ("config", D [("name", D [("function", D [("type", Sv "last_index_of"); ("parameters", D [("string_to_search", Sv "roleName"); ("string_to_find", Sv "searchStr")])])]); ("properties", D [("roleDefinitionId", D [("operator", D [("type", Sv "property_accessor"); ("operands", D [("operand_1", Sv "definition"); ("operand_2", Sv "id")])])]); ("principalId", Sv "principalId")])])])]); ("outputs", D [("ftpUser", D [("decorators", PList []); ("type", Sv "int"); ("value", D [("function", D [("type", Sv "last_index_of"); ("parameters", D [("string_to_search", D [("operator", D [("type", Sv "property_accessor"); ("operands", D [("operand_1", Sv "site"); ("operand_2", Sv "properties")])])]); ("string_to_find", Sv "/")])])])]); ("namespace", D [("decorators", PList []); ("type", Sv "int"); ("value", D [("function", D [("type", Sv "last_index_of"); ("parameters", D [("string_to_search", D [("operator", D [("type", Sv "property_accessor"); ("operands", D [("operand_1", Sv "site"); ("operand_2", Sv "properties")])])]); ("string_to_find", Sv "/")])])])])])]) = true.
Proof. vm_compute. reflexivity. Qed.

(** tests/test_function/examples/string/new_guid/main.bicep *)
Example ex_test_function_string_new_guid : agrees false
"// https://docs.microsoft.com/en-us/azure/azure-resource-manager/bicep/bicep-functions-string#newguid

// param
param roleAssignmentName string = newGuid()
"
  (D [("globals", D [("scope", D [("value", Sv "resourceGroup")])]); ("parameters", D [("roleAssignmentName", D [("decorators", PList []); ("type", Sv "string"); ("default", D [("function", D [("type", Sv "new_guid")])])])])]) = true.
Proof. vm_compute. reflexivity. Qed.

(** tests/test_function/examples/string/pad_left/main.bicep *)
Example ex_test_function_string_pad_left : agrees false
"// https://docs.microsoft.com/en-us/azure/azure-resource-manager/bicep/bicep-functions-string#padleft

// param
param roleAssignmentName string = padLeft(principalId, 1, 'x')

// var
var varStr = padLeft('something', 1)

// resource
resource assignment 'Microsoft.Authorization/roleAssignments@2020-04-01-preview' = {
  name: padLeft(roleName, principalId)
  properties: {
    roleDefinitionId: definition.id
    principalId: principalId
  }
}

// output
output ftpUser string = padLeft(site.properties, 3)

// namespace
output namespace string = sys.padLeft(site.properties, 3)
"
  (D [("globals", D [("scope", D [("value", Sv "resourceGroup")])]); ("parameters", D [("roleAssignmentName", D [("decorators", PList []); ("type", Sv "string"); ("default", D [("function", D [("type", Sv "pad_left"); ("parameters", D [("value_to_pad", Sv "principalId"); ("total_length", PInt (1)); ("padding_character", Sv "x")])])])])]); ("variables", D [("varStr", D [("decorators", PList []); ("value", D [("function", D [("type", Sv "pad_left"); ("parameters", D [("value_to_pad", Sv "something"); ("total_length", PInt (1)); ("padding_character", PNone)])])])])]); ("resources", D [("assignment", D [("decorators", PList []); ("type", Sv "Microsoft.Authorization/roleAssignments"); ("api_version", Sv "2020-04-01-preview"); ("existing", PBool false); ("config", D [("name", D [("function", D [("type", Sv "pad_left"); ("parameters", D [("value_to_pad", Sv "roleName"); ("total_length", Sv "principalId"); ("padding_character", PNone)])])]); ("properties", D [("roleDefinitionId", D [("operator", D [("type", Sv "property_accessor"); ("operands", D [("operand_1", Sv "definition"); ("operand_2", Sv "id")])])]); ("principalId", Sv "principalId")])])])]); ("outputs", D [("ftpUser", D [("decorators", PList []); ("type", Sv "string"); ("value", D [("function", D [("type", Sv "pad_left"); ("parameters", D [("value_to_pad", D [("operator", D [("type", Sv "property_accessor"); ("operands", D [("operand_1", Sv "site"); ("operand_2", Sv "properties")])])]); ("total_length", PInt (3)); ("padding_character", PNone)])])])]); ("namespace", D [("decorators", PList []); ("type", Sv "string"); ("value", D [("function", D [("type", Sv "pad_left"); ("parameters", D [("value_to_pad", D [("operator", D [("type", Sv "property_accessor"); ("operands", D [("operand_1", Sv "site"); ("operand_2", Sv "properties")])])]); ("total_length", PInt (3)); ("padding_character", PNone)])])])])])]) = true.
Proof. vm_compute. reflexivity. Qed.

(** tests/test_function/examples/string/replace/main.bicep *)
Example ex_test_function_string_replace : agrees false
"// https://docs.microsoft.com/en-us/azure/azure-resource-manager/bicep/bicep-functions-string#replace

// param
param roleAssignmentName string = replace(principalId, '/', '')

// var
var varStr = replace('something', 'e', 'f')

// resource
resource assignment 'Microsoft.Authorization/roleAssignments@2020-04-01-preview' = {
  name: replace(roleName, principalId, otherId)
  properties: {
    roleDefinitionId: definition.id
    principalId: principalId
  }
}

// output
output ftpUser string = replace(site.properties, '{0}', 'osdisk')

// namespace sys
output namespace string = sys.replace(site.properties, '{0}', 'osdisk')
"
  (D [("globals", D [("scope", D [("value", Sv "resourceGroup")])]); ("parameters", D [("roleAssignmentName", D [("decorators", PList []); ("type", Sv "string"); ("default", D [("function", D [("type", Sv "replace"); ("parameters", D [("original_string", Sv "principalId"); ("old_string", Sv "/"); ("new_string", Sv "")])])])])]); ("variables", D [("varStr", D [("decorators", PList []); ("value", D [("function", D [("type", Sv "replace"); ("parameters", D [("original_string", Sv "something"); ("old_string", Sv "e"); ("new_string", Sv "f")])])])])]); ("resources", D [("assignment", D [("decorators", PList []); ("type", Sv "Microsoft.Authorization/roleAssignments"); ("api_version", Sv "2020-04-01-preview"); ("existing", PBool false); ("config", D [("name", D [("function", D [("type", Sv "replace"); ("parameters", D [("original_string", Sv "roleName"); ("old_string", Sv "principalId"); ("new_string", Sv "otherId")])])]); ("properties", D [("roleDefinitionId", D [("operator", D [("type", Sv "property_accessor"); ("operands", D [("operand_1", Sv "definition"); ("operand_2", Sv "id")])])]); ("principalId", Sv "principalId")])])])]); ("outputs", D [("ftpUser", D [("decorators", PList []); ("type", Sv "string"); ("value", D [("function", D [("type", Sv "replace"); ("parameters", D [("original_string", D [("operator", D [("type", Sv "property_accessor"); ("operands", D [("operand_1", Sv "site"); ("operand_2", Sv "properties")])])]); ("old_string", Sv "{0}"); ("new_string", Sv "osdisk")])])])]); ("namespace", D [("decorators", PList []); ("type", Sv "string"); ("value", D [("function", D [("type", Sv "replace"); ("parameters", D [("original_string", D [("operator", D [("type", Sv "property_accessor"); ("operands", D [("operand_1", Sv "site"); ("operand_2", Sv "properties")])])]); ("old_string", Sv "{0}"); ("new_string", Sv "osdisk")])])])])])]) = true.
Proof. vm_compute. reflexivity. Qed.

(** tests/test_function/examples/string/split/main.bicep *)
Example ex_test_function_string_split : agrees false
"// https://docs.microsoft.com/en-us/azure/azure-resource-manager/bicep/bicep-functions-string#split

// param
param paramStr array = split('one,two,three', ',')

// var
var varStr = split(administratorAccountUsername, '@')

// resource
resource assignment 'Microsoft.Authorization/roleAssignments@2020-04-01-preview' = {
  name: split(roleName, '.')[0]
  properties: {
    roleDefinitionId: definition.id
    principalId: principalId
  }
}

// output
output ftpUser array = split(site.properties, '/')

// namespace sys
output namespace array = sys.split(site.properties, '/')
"
  (D [("globals", D [("scope", D [("value", Sv "resourceGroup")])]); ("parameters", D [("paramStr", D [("decorators", PList []); ("type", Sv "array"); ("default", D [("function", D [("type", Sv "split"); ("parameters", D [("input_string", Sv "one,two,three"); ("delimiter", Sv ",")])])])])]); ("variables", D [("varStr", D [("decorators", PList []); ("value", D [("function", D [("type", Sv "split"); ("parameters", D [("input_string", Sv "administratorAccountUsername"); ("delimiter", Sv "@")])])])])]); ("resources", D [("assignment", D [("decorators", PList []); ("type", Sv "Microsoft.Authorization/roleAssignments"); ("api_version", Sv "2020-04-01-preview"); ("existing", PBool false); ("config", D [("name", D [("operator", D [("type", Sv "index_accessor"); ("operands", D [("operand_1", D [("function", D [("type", Sv "split"); ("parameters", D [("input_string", Sv "roleName"); ("delimiter", Sv ".")])])]); ("operand_2", PInt (0))])])]); ("properties", D [("roleDefinitionId", D [("operator", D [("type", Sv "property_accessor"); ("operands", D [("operand_1", Sv "definition"); ("operand_2", Sv "id")])])]); ("principalId", Sv "principalId")])])])]); ("outputs", D [("ftpUser", D [("decorators", PList []); ("type", Sv "array"); ("value", D [("function", D [("type", Sv "split"); ("parameters", D [("input_string", D [("operator", D [("type", Sv "property_accessor"); ("operands", D [("operand_1", Sv "site"); ("operand_2", Sv "properties")])])]); ("delimiter", Sv "/")])])])]); ("namespace", D [("decorators", PList []); ("type", Sv "array"); ("value", D [("function", D [("type", Sv "split"); ("parameters", D [("input_string", D [("operator", D [("type", Sv "property_accessor"); ("operands", D [("operand_1", Sv "site"); ("operand_2", Sv "properties")])])]); ("delimiter", Sv "/")])])])])])]) = true.
Proof. vm_compute. reflexivity. Qed.

(** tests/test_function/examples/string/starts_with/main.bicep *)
Example ex_test_function_string_starts_with : agrees false
"// https://docs.microsoft.com/en-us/azure/azure-resource-manager/bicep/bicep-functions-string#startswith

// param
param paramStr bool = startsWith('abcdef', 'ab')

// var
var varstr = startsWith(firstArray, intValue)

// resource
resource identityProvider 'Microsoft.ApiManagement/service/identityProviders@2020-06-01-preview' = {
  name: 'exmple'
  properties: startsWith(firstObject.names, name)
  dependsOn: [
    apiManagementService
  ]
}

// output
output ftpUser bool = startsWith(firstObject, 'some')

// namespace
output namespace bool = sys.startsWith(firstArray, '1')
"
  (D [("globals", D [("scope", D [("value", Sv "resourceGroup")])]); ("parameters", D [("paramStr", D [("decorators", PList []); ("type", Sv "bool"); ("default", D [("function", D [("type", Sv "starts_with"); ("parameters", D [("string_to_search", Sv "abcdef"); ("string_to_find", Sv "ab")])])])])]); ("variables", D [("varstr", D [("decorators", PList []); ("value", D [("function", D [("type", Sv "starts_with"); ("parameters", D [("string_to_search", Sv "firstArray"); ("string_to_find", Sv "intValue")])])])])]); ("resources", D [("identityProvider", D [("decorators", PList []); ("type", Sv "Microsoft.ApiManagement/service/identityProviders"); ("api_version", Sv "2020-06-01-preview"); ("existing", PBool false); ("config", D [("name", Sv "exmple"); ("properties", D [("function", D [("type", Sv "starts_with"); ("parameters", D [("string_to_search", D [("operator", D [("type", Sv "property_accessor"); ("operands", D [("operand_1", Sv "firstObject"); ("operand_2", Sv "names")])])]); ("string_to_find", Sv "name")])])]); ("dependsOn", PList [Sv "apiManagementService"])])])]); ("outputs", D [("ftpUser", D [("decorators", PList []); ("type", Sv "bool"); ("value", D [("function", D [("type", Sv "starts_with"); ("parameters", D [("string_to_search", Sv "firstObject"); ("string_to_find", Sv "some")])])])]); ("namespace", D [("decorators", PList []); ("type", Sv "bool"); ("value", D [("function", D [("type", Sv "starts_with"); ("parameters", D [("string_to_search", Sv "firstArray"); ("string_to_find", Sv "1")])])])])])]) = true.
Proof. vm_compute. reflexivity. Qed.

(** tests/test_function/examples/string/string/main.bicep *)
Example ex_test_function_string_string : agrees false
"// https://docs.microsoft.com/en-us/azure/azure-resource-manager/bicep/bicep-functions-string#string

// param
param roleAssignmentName string = string(principalId)

// var
var varStr = string('something')

// resource
resource assignment 'Microsoft.Authorization/roleAssignments@2020-04-01-preview' = {
  name: string(123)
  properties: {
    roleDefinitionId: definition.id
    principalId: principalId
  }
}

// output
output ftpUser string = string(site.properties)

// namespace sys
output namespace string = sys.string(site.properties)
"
  (D [("globals", D [("scope", D [("value", Sv "resourceGroup")])]); ("parameters", D [("roleAssignmentName", D [("decorators", PList []); ("type", Sv "string"); ("default", D [("function", D [("type", Sv "string"); ("parameters", D [("value_to_convert", Sv "principalId")])])])])]); ("variables", D [("varStr", D [("decorators", PList []); ("value", D [("function", D [("type", Sv "string"); ("parameters", D [("value_to_convert", Sv "something")])])])])]); ("resources", D [("assignment", D [("decorators", PList []); ("type", Sv "Microsoft.Authorization/roleAssignments"); ("api_version", Sv "2020-04-01-preview"); ("existing", PBool false); ("config", D [("name", D [("function", D [("type", Sv "string"); ("parameters", D [("value_to_convert", PInt (123))])])]); ("properties", D [("roleDefinitionId", D [("operator", D [("type", Sv "property_accessor"); ("operands", D [("operand_1", Sv "definition"); ("operand_2", Sv "id")])])]); ("principalId", Sv "principalId")])])])]); ("outputs", D [("ftpUser", D [("decorators", PList []); ("type", Sv "string"); ("value", D [("function", D [("type", Sv "string"); ("parameters", D [("value_to_convert", D [("operator", D [("type", Sv "property_accessor"); ("operands", D [("operand_1", Sv "site"); ("operand_2", Sv "properties")])])])])])])]); ("namespace", D [("decorators", PList []); ("type", Sv "string"); ("value", D [("function", D [("type", Sv "string"); ("parameters", D [("value_to_convert", D [("operator", D [("type", Sv "property_accessor"); ("operands", D [("operand_1", Sv "site"); ("operand_2", Sv "properties")])])])])])])])])]) = true.
Proof. vm_compute. reflexivity. Qed.

(** tests/test_function/examples/string/substring/main.bicep *)
Example ex_test_function_string_substring : agrees false
"// https://docs.microsoft.com/en-us/azure/azure-resource-manager/bicep/bicep-functions-string#substring

// param
param roleAssignmentName string = substring(principalId, 1, 5)

// var
var varStr = substring('something', 1)

// resource
resource assignment 'Microsoft.Authorization/roleAssignments@2020-04-01-preview' = {
  name: substring(roleName, principalId)
  properties: {
    roleDefinitionId: definition.id
    principalId: principalId
  }
}

// output
output ftpUser string = substring(site.properties, 3)

// namespace sys
output namespace string = sys.substring(site.properties, 3)
"
  (D [("globals", D [("scope", D [("value", Sv "resourceGroup")])]); ("parameters", D [("roleAssignmentName", D [("decorators", PList []); ("type", Sv "string"); ("default", D [("function", D [("type", Sv "substring"); ("parameters", D [("string_to_parse", Sv "principalId"); ("start_index", PInt (1)); ("length", PInt (5))])])])])]); ("variables", D [("varStr", D [("decorators", PList []); ("value", D [("function", D [("type", Sv "substring"); ("parameters", D [("string_to_parse", Sv "something"); ("start_index", PInt (1)); ("length", PNone)])])])])]); ("resources", D [("assignment", D [("decorators", PList []); ("type", Sv "Microsoft.Authorization/roleAssignments"); ("api_version", Sv "2020-04-01-preview"); ("existing", PBool false); ("config", D [("name", D [("function", D [("type", Sv "substring"); ("parameters", D [("string_to_parse", Sv "roleName"); ("start_index", Sv "principalId"); ("length", PNone)])])]); ("properties", D [("roleDefinitionId", D [("operator", D [("type", Sv "property_accessor"); ("operands", D [("operand_1", Sv "definition"); ("operand_2", Sv "id")])])]); ("principalId", Sv "principalId")])])])]); ("outputs", D [("ftpUser", D [("decorators", PList []); ("type", Sv "string"); ("value", D [("function", D [("type", Sv "substring"); ("parameters", D [("string_to_parse", D [("operator", D [("type", Sv "property_accessor"); ("operands", D [("operand_1", Sv "site"); ("operand_2", Sv "properties")])])]); ("start_index", PInt (3)); ("length", PNone)])])])]); ("namespace", D [("decorators", PList []); ("type", Sv "string"); ("value", D [("function", D [("type", Sv "substring"); ("parameters", D [("string_to_parse", D [("operator", D [("type", Sv "property_accessor"); ("operands", D [("operand_1", Sv "site"); ("operand_2", Sv "properties")])])]); ("start_index", PInt (3)); ("length", PNone)])])])])])]) = true.
Proof. vm_compute. reflexivity. Qed.

(** tests/test_function/examples/string/to_lower/main.bicep *)
Example ex_test_function_string_to_lower : agrees false
"// https://docs.microsoft.com/en-us/azure/azure-resource-manager/bicep/bicep-functions-string#tolower

// param
param roleAssignmentName string = toLower(principalId)

// var
var varStr = toLower('something')

// resource
resource assignment 'Microsoft.Authorization/roleAssignments@2020-04-01-preview' = {
  name: toLower('ONE two Three')
  properties: {
    roleDefinitionId: definition.id
    principalId: principalId
  }
}

// output
output ftpUser string = toLower(site.properties)

// namespace sys
output namespace string = sys.toLower(site.properties)
"
  (D [("globals", D [("scope", D [("value", Sv "resourceGroup")])]); ("parameters", D [("roleAssignmentName", D [("decorators", PList []); ("type", Sv "string"); ("default", D [("function", D [("type", Sv "to_lower"); ("parameters", D [("string_to_change", Sv "principalId")])])])])]); ("variables", D [("varStr", D [("decorators", PList []); ("value", D [("function", D [("type", Sv "to_lower"); ("parameters", D [("string_to_change", Sv "something")])])])])]); ("resources", D [("assignment", D [("decorators", PList []); ("type", Sv "Microsoft.Authorization/roleAssignments"); ("api_version", Sv "2020-04-01-preview"); ("existing", PBool false); ("config", D [("name", D [("function", D [("type", Sv "to_lower"); ("parameters", D [("string_to_change", Sv "ONE two Three")])])]); ("properties", D [("roleDefinitionId", D [("operator", D [("type", Sv "property_accessor"); ("operands", D [("operand_1", Sv "definition"); ("operand_2", Sv "id")])])]); ("principalId", Sv "principalId")])])])]); ("outputs", D [("ftpUser", D [("decorators", PList []); ("type", Sv "string"); ("value", D [("function", D [("type", Sv "to_lower"); ("parameters", D [("string_to_change", D [("operator", D [("type", Sv "property_accessor"); ("operands", D [("operand_1", Sv "site"); ("operand_2", Sv "properties")])])])])])])]); ("namespace", D [("decorators", PList []); ("type", Sv "string"); ("value", D [("function", D [("type", Sv "to_lower"); ("parameters", D [("string_to_change", D [("operator", D [("type", Sv "property_accessor"); ("operands", D [("operand_1", Sv "site"); ("operand_2", Sv "properties")])])])])])])])])]) = true.
Proof. vm_compute. reflexivity. Qed.

(** tests/test_function/examples/string/to_upper/main.bicep *)
Example ex_test_function_string_to_upper : agrees false
"// https://docs.microsoft.com/en-us/azure/azure-resource-manager/bicep/bicep-functions-string#toupper

// param
param roleAssignmentName string = toUpper(principalId)

// var
var varStr = toUpper('something')

// resource
resource assignment 'Microsoft.Authorization/roleAssignments@2020-04-01-preview' = {
  name: toUpper('ONE two Three')
  properties: {
    roleDefinitionId: definition.id
    principalId: principalId
  }
}

// output
output ftpUser string = toUpper(site.properties)

// namespace sys
output namespace string = sys.toUpper(site.properties)
"
  (D [("globals", D [("scope", D [("value", Sv "resourceGroup")])]); ("parameters", D [("roleAssignmentName", D [("decorators", PList []); ("type", Sv "string"); ("default", D [("function", D [("type", Sv "to_upper"); ("parameters", D [("string_to_change", Sv "principalId")])])])])]); ("variables", D [("varStr", D [("decorators", PList []); ("value", D [("function", D [("type", Sv "to_upper"); ("parameters", D [("string_to_change", Sv "something")])])])])]); ("resources", D [("assignment", D [("decorators", PList []); ("type", Sv "Microsoft.Authorization/roleAssignments"); ("api_version", Sv "2020-04-01-preview"); ("existing", PBool false); ("config", D [("name", D [("function", D [("type", Sv "to_upper"); ("parameters", D [("string_to_change", Sv "ONE two Three")])])]); ("properties", D [("roleDefinitionId", D [("operator", D [("type", Sv "property_accessor"); ("operands", D [("operand_1", Sv "definition"); ("operand_2", Sv "id")])])]); ("principalId", Sv "principalId")])])])]); ("outputs", D [("ftpUser", D [("decorators", PList []); ("type", Sv "string"); ("value", D [("function", D [("type", Sv "to_upper"); ("parameters", D [("string_to_change", D [("operator", D [("type", Sv "property_accessor"); ("operands", D [("operand_1", Sv "site"); ("operand_2", Sv "properties")])])])])])])]); ("namespace", D [("decorators", PList []); ("type", Sv "string"); ("value", D [("function", D [("type", Sv "to_upper"); ("parameters", D [("string_to_change", D [("operator", D [("type", Sv "property_accessor"); ("operands", D [("operand_1", Sv "site"); ("operand_2", Sv "properties")])])])])])])])])]) = true.
Proof. vm_compute. reflexivity. Qed.

(** tests/test_function/examples/string/trim/main.bicep *)
Example ex_test_function_string_trim : agrees false
"// https://docs.microsoft.com/en-us/azure/azure-resource-manager/bicep/bicep-functions-string#trim

// param
param roleAssignmentName string = trim(principalId)

// var
var varStr = trim('something')

// resource
resource assignment 'Microsoft.Authorization/roleAssignments@2020-04-01-preview' = {
  name: trim('ONE two Three')
  properties: {
    roleDefinitionId: definition.id
    principalId: principalId
  }
}

// output
output ftpUser string = trim(site.properties)

// namespace
output namespace string = sys.trim(site.properties)
"
  (D [("globals", D [("scope", D [("value", Sv "resourceGroup")])]); ("parameters", D [("roleAssignmentName", D [("decorators", PList []); ("type", Sv "string"); ("default", D [("function", D [("type", Sv "trim"); ("parameters", D [("string_to_trim", Sv "principalId")])])])])]); ("variables", D [("varStr", D [("decorators", PList []); ("value", D [("function", D [("type", Sv "trim"); ("parameters", D [("string_to_trim", Sv "something")])])])])]); ("resources", D [("assignment", D [("decorators", PList []); ("type", Sv "Microsoft.Authorization/roleAssignments"); ("api_version", Sv "2020-04-01-preview"); ("existing", PBool false); ("config", D [("name", D [("function", D [("type", Sv "trim"); ("parameters", D [("string_to_trim", Sv "ONE two Three")])])]); ("properties", D [("roleDefinitionId", D [("operator", D [("type", Sv "property_accessor"); ("operands", D [("operand_1", Sv "definition"); ("operand_2", Sv "id")])])]); ("principalId", Sv "principalId")])])])]); ("outputs", D [("ftpUser", D [("decorators", PList []); ("type", Sv "string"); ("value", D [("function", D [("type", Sv "trim"); ("parameters", D [("string_to_trim", D [("operator", D [("type", Sv "property_accessor"); ("operands", D [("operand_1", Sv "site"); ("operand_2", Sv "properties")])])])])])])]); ("namespace", D [("decorators", PList []); ("type", Sv "string"); ("value", D [("function", D [("type", Sv "trim"); ("parameters", D [("string_to_trim", D [("operator", D [("type", Sv "property_accessor"); ("operands", D [("operand_1", Sv "site"); ("operand_2", Sv "properties")])])])])])])])])]) = true.
Proof. vm_compute. reflexivity. Qed.

(** tests/test_function/examples/string/unique_string/main.bicep *)
Example ex_test_function_string_unique_string : agrees false
"// https://docs.microsoft.com/en-us/azure/azure-resource-manager/bicep/bicep-functions-string#uniquestring

// param
param roleAssignmentName string = uniqueString(principalId, roleDefinitionId, rgName)

// var
var varStr = uniqueString('something', 'else')

// resource
resource assignment 'Microsoft.Authorization/roleAssignments@2020-04-01-preview' = {
  name: uniqueString(roleName, principalId)
  properties: {
    roleDefinitionId: definition.id
    principalId: principalId
  }
}

// output
output ftpUser string = uniqueString(site.properties)

// namespace sys
output namespace string = sys.uniqueString(site.properties)
"
  (D [("globals", D [("scope", D [("value", Sv "resourceGroup")])]); ("parameters", D [("roleAssignmentName", D [("decorators", PList []); ("type", Sv "string"); ("default", D [("function", D [("type", Sv "unique_string"); ("parameters", D [("base_string", Sv "principalId"); ("extra_string_1", Sv "roleDefinitionId"); ("extra_string_2", Sv "rgName")])])])])]); ("variables", D [("varStr", D [("decorators", PList []); ("value", D [("function", D [("type", Sv "unique_string"); ("parameters", D [("base_string", Sv "something"); ("extra_string_1", Sv "else")])])])])]); ("resources", D [("assignment", D [("decorators", PList []); ("type", Sv "Microsoft.Authorization/roleAssignments"); ("api_version", Sv "2020-04-01-preview"); ("existing", PBool false); ("config", D [("name", D [("function", D [("type", Sv "unique_string"); ("parameters", D [("base_string", Sv "roleName"); ("extra_string_1", Sv "principalId")])])]); ("properties", D [("roleDefinitionId", D [("operator", D [("type", Sv "property_accessor"); ("operands", D [("operand_1", Sv "definition"); ("operand_2", Sv "id")])])]); ("principalId", Sv "principalId")])])])]); ("outputs", D [("ftpUser", D [("decorators", PList []); ("type", Sv "string"); ("value", D [("function", D [("type", Sv "unique_string"); ("parameters", D [("base_string", D [("operator", D [("type", Sv "property_accessor"); ("operands", D [("operand_1", Sv "site"); ("operand_2", Sv "properties")])])])])])])]); ("namespace", D [("decorators", PList []); ("type", Sv "string"); ("value", D [("function", D [("type", Sv "unique_string"); ("parameters", D [("base_string", D [("operator", D [("type", Sv "property_accessor"); ("operands", D [("operand_1", Sv "site"); ("operand_2", Sv "properties")])])])])])])])])]) = true.
Proof. vm_compute. reflexivity. Qed.

(** tests/test_function/examples/string/uri/main.bicep *)
Example ex_test_function_string_uri : agrees false
"// https://docs.microsoft.com/en-us/azure/azure-resource-manager/bicep/bicep-functions-string#uri

// param
param paramStr string = uri('http://contoso.com/resources/', 'nested/azuredeploy.json')

// var
var varStr = uri(administratorAccountUsername, 'nested/azuredeploy.json')

// resource
resource assignment 'Microsoft.Authorization/roleAssignments@2020-04-01-preview' = {
  name: uri(roleName, searchStr)
  properties: {
    roleDefinitionId: definition.id
    principalId: uri
  }
}

// output
output ftpUser string = uri(site.properties, 'nested/azuredeploy.json')

// namespace sys
output namespace string = sys.uri(site.properties, 'nested/azuredeploy.json')
"
  (D [("globals", D [("scope", D [("value", Sv "resourceGroup")])]); ("parameters", D [("paramStr", D [("decorators", PList []); ("type", Sv "string"); ("default", D [("function", D [("type", Sv "uri"); ("parameters", D [("base_uri", Sv "http://contoso.com/resources/"); ("relative_uri", Sv "nested/azuredeploy.json")])])])])]); ("variables", D [("varStr", D [("decorators", PList []); ("value", D [("function", D [("type", Sv "uri"); ("parameters", D [("base_uri", Sv "administratorAccountUsername"); ("relative_uri", Sv "nested/azuredeploy.json")])])])])]); ("resources", D [("assignment", D [("decorators", PList []); ("type", Sv "Microsoft.Authorization/roleAssignments"); ("api_version", Sv "2020-04-01-preview"); ("existing", PBool false); ("config", D [("name", D [("function", D [("type", Sv "uri"); ("parameters", D [("base_uri", Sv "roleName"); ("relative_uri", Sv "searchStr")])])]); ("properties", D [("roleDefinitionId", D [("operator", D [("type", Sv "property_accessor"); ("operands", D [("operand_1", Sv "definition"); ("operand_2", Sv "id")])])]); ("principalId", Sv "uri")])])])]); ("outputs", D [("ftpUser", D [("decorators", PList []); ("type", Sv "string"); ("value", D [("function", D [("type", Sv "uri"); ("parameters", D [("base_uri", D [("operator", D [("type", Sv "property_accessor"); ("operands", D [("operand_1", Sv "site"); ("operand_2", Sv "properties")])])]); ("relative_uri", Sv "nested/azuredeploy.json")])])])]); ("namespace", D [("decorators", PList []); ("type", Sv "string"); ("value", D [("function", D [("type", Sv "uri"); ("parameters", D [("base_uri", D [("operator", D [("type", Sv "property_accessor"); ("operands", D [("operand_1", Sv "site"); ("operand_2", Sv "properties")])])]); ("relative_uri", Sv "nested/azuredeploy.json")])])])])])]) = true.
Proof. vm_compute. reflexivity. Qed.

(** tests/test_function/examples/string/uri_component/main.bicep *)
Example ex_test_function_string_uri_component : agrees false
"// https://docs.microsoft.com/en-us/azure/azure-resource-manager/bicep/bicep-functions-string#uricomponent

// param
param paramStr string = uriComponent('http://contoso.com/resources/')

// var
var varStr = uriComponent(administratorAccountUsername)

// resource
resource assignment 'Microsoft.Authorization/roleAssignments@2020-04-01-preview' = {
  name: uriComponent(roleName)
  properties: {
    roleDefinitionId: definition.id
    principalId: principalId
  }
}

// output
output ftpUser string = uriComponent(site.properties)

// namespace sys
output namespace string = sys.uriComponent(site.properties)
"
  (D [("globals", D [("scope", D [("value", Sv "resourceGroup")])]); ("parameters", D [("paramStr", D [("decorators", PList []); ("type", Sv "string"); ("default", D [("function", D [("type", Sv "uri_component"); ("parameters", D [("string_to_encode", Sv "http://contoso.com/resources/")])])])])]); ("variables", D [("varStr", D [("decorators", PList []); ("value", D [("function", D [("type", Sv "uri_component"); ("parameters", D [("string_to_encode", Sv "administratorAccountUsername")])])])])]); ("resources", D [("assignment", D [("decorators", PList []); ("type", Sv "Microsoft.Authorization/roleAssignments"); ("api_version", Sv "2020-04-01-preview"); ("existing", PBool false); ("config", D [("name", D [("function", D [("type", Sv "uri_component"); ("parameters", D [("string_to_encode", Sv "roleName")])])]); ("properties", D [("roleDefinitionId", D [("operator", D [("type", Sv "property_accessor"); ("operands", D [("operand_1", Sv "definition"); ("operand_2", Sv "id")])])]); ("principalId", Sv "principalId")])])])]); ("outputs", D [("ftpUser", D [("decorators", PList []); ("type", Sv "string"); ("value", D [("function", D [("type", Sv "uri_component"); ("parameters", D [("string_to_encode", D [("operator", D [("type", Sv "property_accessor"); ("operands", D [("operand_1", Sv "site"); ("operand_2", Sv "properties")])])])])])])]); ("namespace", D [("decorators", PList []); ("type", Sv "string"); ("value", D [("function", D [("type", Sv "uri_component"); ("parameters", D [("string_to_encode", D [("operator", D [("type", Sv "property_accessor"); ("operands", D [("operand_1", Sv "site"); ("operand_2", Sv "properties")])])])])])])])])]) = true.
Proof. vm_compute. reflexivity. Qed.

(** tests/test_function/examples/string/uri_component_to_string/main.bicep *)
Example ex_test_function_string_uri_component_to_string : agrees false
"// https://docs.microsoft.com/en-us/azure/azure-resource-manager/bicep/bicep-functions-string#uricomponenttostring

// param
param paramStr string = uriComponentToString('http%3A%2F%2Fcontoso.com%2Fresources%2F')

// var
var varStr = uriComponentToString(administratorAccountUsername)

// resource
resource assignment 'Microsoft.Authorization/roleAssignments@2020-04-01-preview' = {
  name: uriComponentToString(roleName)
  properties: {
    roleDefinitionId: definition.id
    principalId: principalId
  }
}

// output
output ftpUser string = uriComponentToString(site.properties)

// namespace sys
output namespace string = sys.uriComponentToString(site.properties)
"
  (D [("globals", D [("scope", D [("value", Sv "resourceGroup")])]); ("parameters", D [("paramStr", D [("decorators", PList []); ("type", Sv "string"); ("default", D [("function", D [("type", Sv "uri_component_to_string"); ("parameters", D [("uri_encoded_string", Sv "http%3A%2F%2Fcontoso.com%2Fresources%2F")])])])])]); ("variables", D [("varStr", D [("decorators", PList []); ("value", D [("function", D [("type", Sv "uri_component_to_string"); ("parameters", D [("uri_encoded_string", Sv "administratorAccountUsername")])])])])]); ("resources", D [("assignment", D [("decorators", PList []); ("type", Sv "Microsoft.Authorization/roleAssignments"); ("api_version", Sv "2020-04-01-preview"); ("existing", PBool false); ("config", D [("name", D [("function", D [("type", Sv "uri_component_to_string"); ("parameters", D [("uri_encoded_string", Sv "roleName")])])]); ("properties", D [("roleDefinitionId", D [("operator", D [("type", Sv "property_accessor"); ("operands", D [("operand_1", Sv "definition"); ("operand_2", Sv "id")])])]); ("principalId", Sv "principalId")])])])]); ("outputs", D [("ftpUser", D [("decorators", PList []); ("type", Sv "string"); ("value", D [("function", D [("type", Sv "uri_component_to_string"); ("parameters", D [("uri_encoded_string", D [("operator", D [("type", Sv "property_accessor"); ("operands", D [("operand_1", Sv "site"); ("operand_2", Sv "properties")])])])])])])]); ("namespace", D [("decorators", PList []); ("type", Sv "string"); ("value", D [("function", D [("type", Sv "uri_component_to_string"); ("parameters", D [("uri_encoded_string", D [("operator", D [("type", Sv "property_accessor"); ("operands", D [("operand_1", Sv "site"); ("operand_2", Sv "properties")])])])])])])])])]) = true.
Proof. vm_compute. reflexivity. Qed.

(** tests/test_operator/examples/accessor/function/main.bicep *)
Example ex_test_operator_accessor_function : agrees false
"// https://learn.microsoft.com/en-us/azure/azure-resource-manager/bicep/operators-access#function-accessor

// resource
resource dScript 'Microsoft.Resources/deploymentScripts@2019-10-01-preview' = {
  name: 'scriptWithStorage'
  location: location
  properties: {
    azCliVersion: '2.0.80'
    storageAccountSettings: {
      storageAccountName: storageAccount.name
      storageAccountKey: storageAccount.listKeys().keys[0].value
    }
  }
}

// module
module sql './sql.bicep' = {
  name: 'deploySQL'
  params: {
    sqlServerName: sqlServerName
    adminLogin: adminLogin
    adminPassword: kv.getSecret('vmAdminPassword')
  }
}

// output
output subnetId string = storageAccount.listAccountSas('2021-04-01', accountSasProperties).accountSasToken
"
  (D [("globals", D [("scope", D [("value", Sv "resourceGroup")])]); ("resources", D [("dScript", D [("decorators", PList []); ("type", Sv "Microsoft.Resources/deploymentScripts"); ("api_version", Sv "2019-10-01-preview"); ("existing", PBool false); ("config", D [("name", Sv "scriptWithStorage"); ("location", Sv "location"); ("properties", D [("azCliVersion", Sv "2.0.80"); ("storageAccountSettings", D [("storageAccountName", D [("operator", D [("type", Sv "property_accessor"); ("operands", D [("operand_1", Sv "storageAccount"); ("operand_2", Sv "name")])])]); ("storageAccountKey", D [("operator", D [("type", Sv "property_accessor"); ("operands", D [("operand_1", D [("operator", D [("type", Sv "function_accessor"); ("operands", D [("operand_1", Sv "storageAccount"); ("func_name", Sv "listKeys")])])]); ("operand_2", D [("operator", D [("type", Sv "property_accessor"); ("operands", D [("operand_1", D [("operator", D [("type", Sv "index_accessor"); ("operands", D [("operand_1", Sv "keys"); ("operand_2", PInt (0))])])]); ("operand_2", Sv "value")])])])])])])])])])])]); ("modules", D [("sql", D [("decorators", PList []); ("type", Sv "local"); ("detail", D [("full", Sv "./sql.bicep"); ("path", Sv "./sql.bicep")]); ("config", D [("name", Sv "deploySQL"); ("params", D [("sqlServerName", Sv "sqlServerName"); ("adminLogin", Sv "adminLogin"); ("adminPassword", D [("operator", D [("type", Sv "function_accessor"); ("operands", D [("operand_1", Sv "kv"); ("func_name", Sv "getSecret"); ("operand_2", Sv "vmAdminPassword")])])])])])])]); ("outputs", D [("subnetId", D [("decorators", PList []); ("type", Sv "string"); ("value", D [("operator", D [("type", Sv "property_accessor"); ("operands", D [("operand_1", D [("operator", D [("type", Sv "function_accessor"); ("operands", D [("operand_1", Sv "storageAccount"); ("func_name", Sv "listAccountSas"); ("operand_2", Sv "2021-04-01"); ("operand_3", Sv "accountSasProperties")])])]); ("operand_2", Sv "accountSasToken")])])])])])]) = true.
Proof. vm_compute. reflexivity. Qed.

(** tests/test_operator/examples/accessor/index/main.bicep *)
Example ex_test_operator_accessor_index : agrees false
"// https://learn.microsoft.com/en-us/azure/azure-resource-manager/bicep/operators-access#index-accessor

var location = 'westeurope'
var regions = {
  uksouth: 'uks'
  westeurope: 'we'
}
var shortLocation = regions[location]
var zones = {
  zone1: regions
  zone2: {}
}

output myRegion string = regions['uksouth']
output myZone string = zones.zone1['westeurope']
output region string = shortLocation
"
  (D [("globals", D [("scope", D [("value", Sv "resourceGroup")])]); ("outputs", D [("myRegion", D [("decorators", PList []); ("type", Sv "string"); ("value", D [("operator", D [("type", Sv "index_accessor"); ("operands", D [("operand_1", Sv "regions"); ("operand_2", Sv "uksouth")])])])]); ("myZone", D [("decorators", PList []); ("type", Sv "string"); ("value", D [("operator", D [("type", Sv "property_accessor"); ("operands", D [("operand_1", Sv "zones"); ("operand_2", D [("operator", D [("type", Sv "index_accessor"); ("operands", D [("operand_1", Sv "zone1"); ("operand_2", Sv "westeurope")])])])])])])]); ("region", D [("decorators", PList []); ("type", Sv "string"); ("value", Sv "shortLocation")])]); ("variables", D [("location", D [("decorators", PList []); ("value", Sv "westeurope")]); ("regions", D [("decorators", PList []); ("value", D [("uksouth", Sv "uks"); ("westeurope", Sv "we")])]); ("shortLocation", D [("decorators", PList []); ("value", D [("operator", D [("type", Sv "index_accessor"); ("operands", D [("operand_1", Sv "regions"); ("operand_2", Sv "location")])])])]); ("zones", D [("decorators", PList []); ("value", D [("zone1", Sv "regions"); ("zone2", D [])])])])]) = true.
Proof. vm_compute. reflexivity. Qed.

(** tests/test_operator/examples/accessor/nested_resource/main.bicep *)
Example ex_test_operator_accessor_nested_resource : agrees false
"// https://learn.microsoft.com/en-us/azure/azure-resource-manager/bicep/operators-access#nested-resource-accessor

resource demoParent 'demo.Rp/parentType@2020-01-01' = {
  name: 'demoParent'
  location: 'West US'

  // Declare a nested resource within 'demoParent'
  resource demoNested 'childType' = {
    name: 'demoNested'
    properties: {
      displayName: 'The nested instance.'
    }
  }

  // Declare another nested resource
  resource demoSibling 'childType' = {
    name: 'demoSibling'
    properties: {
      // Use symbolic name to reference because this line is within demoParent
      displayName: 'Sibling of ${demoNested.properties.displayName}'
    }
  }
}

// Use nested accessor to reference because this line is outside of demoParent
output displayName string = demoParent::demoNested.properties.displayName
"
  (D [("globals", D [("scope", D [("value", Sv "resourceGroup")])]); ("resources", D [("demoParent", D [("decorators", PList []); ("type", Sv "demo.Rp/parentType"); ("api_version", Sv "2020-01-01"); ("existing", PBool false); ("config", D [("name", Sv "demoParent"); ("location", Sv "West US")])]); ("demoParent__demoSibling", D [("decorators", PList []); ("type", Sv "demo.Rp/parentType/childType"); ("api_version", Sv "2020-01-01"); ("existing", PBool false); ("config", D [("name", Sv "demoSibling"); ("properties", D [("displayName", Sv "Sibling of ${demoNested.properties.displayName}")]); ("depends_on", PList [Sv "demoParent"])])])]); ("outputs", D [("displayName", D [("decorators", PList []); ("type", Sv "string"); ("value", D [("operator", D [("type", Sv "nested_resource_accessor"); ("operands", D [("operand_1", Sv "demoParent"); ("operand_2", D [("operator", D [("type", Sv "property_accessor"); ("operands", D [("operand_1", Sv "demoNested"); ("operand_2", D [("operator", D [("type", Sv "property_accessor"); ("operands", D [("operand_1", Sv "properties"); ("operand_2", Sv "displayName")])])])])])])])])])])])]) = true.
Proof. vm_compute. reflexivity. Qed.

(** tests/test_operator/examples/accessor/non_null/main.bicep *)
Example ex_test_operator_accessor_non_null : agrees false
"// https://github.com/Azure/bicep/pull/9585

// index
var maybeNull = mightIncludeNull[0]!.key

// function
resource backupVault 'Microsoft.DataProtection/backupVaults@2022-03-01' existing = {
  name: last(split(resourceId, '/'))!
}
"
  (D [("globals", D [("scope", D [("value", Sv "resourceGroup")])]); ("variables", D [("maybeNull", D [("decorators", PList []); ("value", D [("operator", D [("type", Sv "property_accessor"); ("operands", D [("operand_1", D [("operator", D [("type", Sv "index_accessor"); ("operands", D [("operand_1", Sv "mightIncludeNull"); ("operand_2", PInt (0))])])]); ("operand_2", Sv "key")])])])])]); ("resources", D [("backupVault", D [("decorators", PList []); ("type", Sv "Microsoft.DataProtection/backupVaults"); ("api_version", Sv "2022-03-01"); ("existing", PBool true); ("config", D [("name", D [("function", D [("type", Sv "last"); ("parameters", D [("arg_1", D [("function", D [("type", Sv "split"); ("parameters", D [("input_string", Sv "resourceId"); ("delimiter", Sv "/")])])])])])])])])])]) = true.
Proof. vm_compute. reflexivity. Qed.

(** tests/test_operator/examples/accessor/property/main.bicep *)
Example ex_test_operator_accessor_property : agrees false
"// https://learn.microsoft.com/en-us/azure/azure-resource-manager/bicep/operators-access#property-accessor

var x = {
  y: {
    z: 'Hello'
    a: true
  }
  q: 42
}

output outputZ string = x.y.z
output outputQ int = x.q
"
  (D [("globals", D [("scope", D [("value", Sv "resourceGroup")])]); ("variables", D [("x", D [("decorators", PList []); ("value", D [("y", D [("z", Sv "Hello"); ("a", PBool true)]); ("q", PInt (42))])])]); ("outputs", D [("outputZ", D [("decorators", PList []); ("type", Sv "string"); ("value", D [("operator", D [("type", Sv "property_accessor"); ("operands", D [("operand_1", Sv "x"); ("operand_2", D [("operator", D [("type", Sv "property_accessor"); ("operands", D [("operand_1", Sv "y"); ("operand_2", Sv "z")])])])])])])]); ("outputQ", D [("decorators", PList []); ("type", Sv "int"); ("value", D [("operator", D [("type", Sv "property_accessor"); ("operands", D [("operand_1", Sv "x"); ("operand_2", Sv "q")])])])])])]) = true.
Proof. vm_compute. reflexivity. Qed.

(** tests/test_operator/examples/comparison/equals/main.bicep *)
Example ex_test_operator_comparison_equals : agrees false
"// https://docs.microsoft.com/en-us/azure/azure-resource-manager/bicep/operators-comparison#equals-

// int
param intEqual bool = 5 == 6

// bool
var firstBool = true == false

// string
var elementEqual = 'demo' == 'demo'

// array
var arrayEqual = [
  1
  2
  3
] == [
  1
  2
  3
]

var objectEqual = {
  prop2: 'val2'
  prop1: 'val1'
} == {
  prop1: 'valX'
  prop2: 'valY'
}

// elements
output elementEqual bool = firstString == secondString

// property
resource pip 'Microsoft.Network/publicIPAddresses@2020-06-01' = {
  name: publicIp.name
  location: publicIp.location
  properties: {
    ddosSettings: {
      protectedIP: publicIpLabel == 'public'
    }
    publicIPAllocationMethod: 'Static'
  }
}
"
  (D [("globals", D [("scope", D [("value", Sv "resourceGroup")])]); ("parameters", D [("intEqual", D [("decorators", PList []); ("type", Sv "bool"); ("default", D [("operator", D [("type", Sv "equals"); ("operands", D [("operand_1", PInt (5)); ("operand_2", PInt (6))])])])])]); ("variables", D [("firstBool", D [("decorators", PList []); ("value", D [("operator", D [("type", Sv "equals"); ("operands", D [("operand_1", PBool true); ("operand_2", PBool false)])])])]); ("elementEqual", D [("decorators", PList []); ("value", D [("operator", D [("type", Sv "equals"); ("operands", D [("operand_1", Sv "demo"); ("operand_2", Sv "demo")])])])]); ("arrayEqual", D [("decorators", PList []); ("value", D [("operator", D [("type", Sv "equals"); ("operands", D [("operand_1", PList [PInt (1); PInt (2); PInt (3)]); ("operand_2", PList [PInt (1); PInt (2); PInt (3)])])])])]); ("objectEqual", D [("decorators", PList []); ("value", D [("operator", D [("type", Sv "equals"); ("operands", D [("operand_1", D [("prop2", Sv "val2"); ("prop1", Sv "val1")]); ("operand_2", D [("prop1", Sv "valX"); ("prop2", Sv "valY")])])])])])]); ("outputs", D [("elementEqual", D [("decorators", PList []); ("type", Sv "bool"); ("value", D [("operator", D [("type", Sv "equals"); ("operands", D [("operand_1", Sv "firstString"); ("operand_2", Sv "secondString")])])])])]); ("resources", D [("pip", D [("decorators", PList []); ("type", Sv "Microsoft.Network/publicIPAddresses"); ("api_version", Sv "2020-06-01"); ("existing", PBool false); ("config", D [("name", D [("operator", D [("type", Sv "property_accessor"); ("operands", D [("operand_1", Sv "publicIp"); ("operand_2", Sv "name")])])]); ("location", D [("operator", D [("type", Sv "property_accessor"); ("operands", D [("operand_1", Sv "publicIp"); ("operand_2", Sv "location")])])]); ("properties", D [("ddosSettings", D [("protectedIP", D [("operator", D [("type", Sv "equals"); ("operands", D [("operand_1", Sv "publicIpLabel"); ("operand_2", Sv "public")])])])]); ("publicIPAllocationMethod", Sv "Static")])])])])]) = true.
Proof. vm_compute. reflexivity. Qed.

(** tests/test_operator/examples/comparison/equals_case_insensitive/main.bicep *)
Example ex_test_operator_comparison_equals_case_insensitive : agrees false
"// https://docs.microsoft.com/en-us/azure/azure-resource-manager/bicep/operators-comparison#equal-case-insensitive-

// parameter
param paramEqual bool = 'demo' =~ 'Demo'

// variable
var varEqual = 'demo' =~ 'Demo'

// output
output outputEqual bool = firstString =~ secondString

// resource
resource pip 'Microsoft.Network/publicIPAddresses@2020-06-01' = {
  name: publicIp.name
  location: publicIp.location
  properties: {
    ddosSettings: {
      protectedIP: publicIpLabel =~ 'public'
    }
    publicIPAllocationMethod: 'Static'
  }
}
"
  (D [("globals", D [("scope", D [("value", Sv "resourceGroup")])]); ("parameters", D [("paramEqual", D [("decorators", PList []); ("type", Sv "bool"); ("default", D [("operator", D [("type", Sv "equals_case_insensitive"); ("operands", D [("operand_1", Sv "demo"); ("operand_2", Sv "Demo")])])])])]); ("variables", D [("varEqual", D [("decorators", PList []); ("value", D [("operator", D [("type", Sv "equals_case_insensitive"); ("operands", D [("operand_1", Sv "demo"); ("operand_2", Sv "Demo")])])])])]); ("outputs", D [("outputEqual", D [("decorators", PList []); ("type", Sv "bool"); ("value", D [("operator", D [("type", Sv "equals_case_insensitive"); ("operands", D [("operand_1", Sv "firstString"); ("operand_2", Sv "secondString")])])])])]); ("resources", D [("pip", D [("decorators", PList []); ("type", Sv "Microsoft.Network/publicIPAddresses"); ("api_version", Sv "2020-06-01"); ("existing", PBool false); ("config", D [("name", D [("operator", D [("type", Sv "property_accessor"); ("operands", D [("operand_1", Sv "publicIp"); ("operand_2", Sv "name")])])]); ("location", D [("operator", D [("type", Sv "property_accessor"); ("operands", D [("operand_1", Sv "publicIp"); ("operand_2", Sv "location")])])]); ("properties", D [("ddosSettings", D [("protectedIP", D [("operator", D [("type", Sv "equals_case_insensitive"); ("operands", D [("operand_1", Sv "publicIpLabel"); ("operand_2", Sv "public")])])])]); ("publicIPAllocationMethod", Sv "Static")])])])])]) = true.
Proof. vm_compute. reflexivity. Qed.

(** tests/test_operator/examples/comparison/greater_than/main.bicep *)
Example ex_test_operator_comparison_greater_than : agrees false
"// https://docs.microsoft.com/en-us/azure/azure-resource-manager/bicep/operators-comparison#greater-than-

// parameter
param paramCompare bool = 6 > 5

// variable
var varCompare = 'demo' > 'damo'

// output
output outputCompare bool = firstString > secondString

// resource
resource pip 'Microsoft.Network/publicIPAddresses@2020-06-01' = {
  name: publicIp.name
  location: publicIp.location
  properties: {
    ddosSettings: {
      protectedIP: publicIpLabel > 'public'
    }
    publicIPAllocationMethod: 'Static'
  }
}
"
  (D [("globals", D [("scope", D [("value", Sv "resourceGroup")])]); ("parameters", D [("paramCompare", D [("decorators", PList []); ("type", Sv "bool"); ("default", D [("operator", D [("type", Sv "greater_than"); ("operands", D [("operand_1", PInt (6)); ("operand_2", PInt (5))])])])])]); ("variables", D [("varCompare", D [("decorators", PList []); ("value", D [("operator", D [("type", Sv "greater_than"); ("operands", D [("operand_1", Sv "demo"); ("operand_2", Sv "damo")])])])])]); ("outputs", D [("outputCompare", D [("decorators", PList []); ("type", Sv "bool"); ("value", D [("operator", D [("type", Sv "greater_than"); ("operands", D [("operand_1", Sv "firstString"); ("operand_2", Sv "secondString")])])])])]); ("resources", D [("pip", D [("decorators", PList []); ("type", Sv "Microsoft.Network/publicIPAddresses"); ("api_version", Sv "2020-06-01"); ("existing", PBool false); ("config", D [("name", D [("operator", D [("type", Sv "property_accessor"); ("operands", D [("operand_1", Sv "publicIp"); ("operand_2", Sv "name")])])]); ("location", D [("operator", D [("type", Sv "property_accessor"); ("operands", D [("operand_1", Sv "publicIp"); ("operand_2", Sv "location")])])]); ("properties", D [("ddosSettings", D [("protectedIP", D [("operator", D [("type", Sv "greater_than"); ("operands", D [("operand_1", Sv "publicIpLabel"); ("operand_2", Sv "public")])])])]); ("publicIPAllocationMethod", Sv "Static")])])])])]) = true.
Proof. vm_compute. reflexivity. Qed.

(** tests/test_operator/examples/comparison/greater_than_or_equals/main.bicep *)
Example ex_test_operator_comparison_greater_than_or_equals : agrees false
"// https://docs.microsoft.com/en-us/azure/azure-resource-manager/bicep/operators-comparison#greater-than-or-equal-

// parameter
param paramCompare bool = 6 >= 5

// variable
var varCompare = 'demo' >= 'damo'

// output
output outputCompare bool = firstString >= secondString

// resource
resource pip 'Microsoft.Network/publicIPAddresses@2020-06-01' = {
  name: publicIp.name
  location: publicIp.location
  properties: {
    ddosSettings: {
      protectedIP: publicIpLabel >= 'public'
    }
    publicIPAllocationMethod: 'Static'
  }
}
"
  (D [("globals", D [("scope", D [("value", Sv "resourceGroup")])]); ("parameters", D [("paramCompare", D [("decorators", PList []); ("type", Sv "bool"); ("default", D [("operator", D [("type", Sv "greater_than_or_equals"); ("operands", D [("operand_1", PInt (6)); ("operand_2", PInt (5))])])])])]); ("variables", D [("varCompare", D [("decorators", PList []); ("value", D [("operator", D [("type", Sv "greater_than_or_equals"); ("operands", D [("operand_1", Sv "demo"); ("operand_2", Sv "damo")])])])])]); ("outputs", D [("outputCompare", D [("decorators", PList []); ("type", Sv "bool"); ("value", D [("operator", D [("type", Sv "greater_than_or_equals"); ("operands", D [("operand_1", Sv "firstString"); ("operand_2", Sv "secondString")])])])])]); ("resources", D [("pip", D [("decorators", PList []); ("type", Sv "Microsoft.Network/publicIPAddresses"); ("api_version", Sv "2020-06-01"); ("existing", PBool false); ("config", D [("name", D [("operator", D [("type", Sv "property_accessor"); ("operands", D [("operand_1", Sv "publicIp"); ("operand_2", Sv "name")])])]); ("location", D [("operator", D [("type", Sv "property_accessor"); ("operands", D [("operand_1", Sv "publicIp"); ("operand_2", Sv "location")])])]); ("properties", D [("ddosSettings", D [("protectedIP", D [("operator", D [("type", Sv "greater_than_or_equals"); ("operands", D [("operand_1", Sv "publicIpLabel"); ("operand_2", Sv "public")])])])]); ("publicIPAllocationMethod", Sv "Static")])])])])]) = true.
Proof. vm_compute. reflexivity. Qed.

(** tests/test_operator/examples/comparison/less_than/main.bicep *)
Example ex_test_operator_comparison_less_than : agrees false
"// https://docs.microsoft.com/en-us/azure/azure-resource-manager/bicep/operators-comparison#less-than-

// parameter
param paramCompare bool = 6 < 5

// variable
var varCompare = 'demo' < 'damo'

// output
output outputCompare bool = firstString < secondString

// resource
resource pip 'Microsoft.Network/publicIPAddresses@2020-06-01' = {
  name: publicIp.name
  location: publicIp.location
  properties: {
    ddosSettings: {
      protectedIP: publicIpLabel < 'public'
    }
    publicIPAllocationMethod: 'Static'
  }
}
"
  (D [("globals", D [("scope", D [("value", Sv "resourceGroup")])]); ("parameters", D [("paramCompare", D [("decorators", PList []); ("type", Sv "bool"); ("default", D [("operator", D [("type", Sv "less_than"); ("operands", D [("operand_1", PInt (6)); ("operand_2", PInt (5))])])])])]); ("variables", D [("varCompare", D [("decorators", PList []); ("value", D [("operator", D [("type", Sv "less_than"); ("operands", D [("operand_1", Sv "demo"); ("operand_2", Sv "damo")])])])])]); ("outputs", D [("outputCompare", D [("decorators", PList []); ("type", Sv "bool"); ("value", D [("operator", D [("type", Sv "less_than"); ("operands", D [("operand_1", Sv "firstString"); ("operand_2", Sv "secondString")])])])])]); ("resources", D [("pip", D [("decorators", PList []); ("type", Sv "Microsoft.Network/publicIPAddresses"); ("api_version", Sv "2020-06-01"); ("existing", PBool false); ("config", D [("name", D [("operator", D [("type", Sv "property_accessor"); ("operands", D [("operand_1", Sv "publicIp"); ("operand_2", Sv "name")])])]); ("location", D [("operator", D [("type", Sv "property_accessor"); ("operands", D [("operand_1", Sv "publicIp"); ("operand_2", Sv "location")])])]); ("properties", D [("ddosSettings", D [("protectedIP", D [("operator", D [("type", Sv "less_than"); ("operands", D [("operand_1", Sv "publicIpLabel"); ("operand_2", Sv "public")])])])]); ("publicIPAllocationMethod", Sv "Static")])])])])]) = true.
Proof. vm_compute. reflexivity. Qed.

(** tests/test_operator/examples/comparison/less_than_or_equals/main.bicep *)
Example ex_test_operator_comparison_less_than_or_equals : agrees false
"// https://docs.microsoft.com/en-us/azure/azure-resource-manager/bicep/operators-comparison#less-than-or-equal-

// parameter
param paramCompare bool = 6 <= 5

// variable
var varCompare = 'demo' <= 'damo'

// output
output outputCompare bool = firstString <= secondString

// resource
resource pip 'Microsoft.Network/publicIPAddresses@2020-06-01' = {
  name: publicIp.name
  location: publicIp.location
  properties: {
    ddosSettings: {
      protectedIP: publicIpLabel <= 'public'
    }
    publicIPAllocationMethod: 'Static'
  }
}
"
  (D [("globals", D [("scope", D [("value", Sv "resourceGroup")])]); ("parameters", D [("paramCompare", D [("decorators", PList []); ("type", Sv "bool"); ("default", D [("operator", D [("type", Sv "less_than_or_equals"); ("operands", D [("operand_1", PInt (6)); ("operand_2", PInt (5))])])])])]); ("variables", D [("varCompare", D [("decorators", PList []); ("value", D [("operator", D [("type", Sv "less_than_or_equals"); ("operands", D [("operand_1", Sv "demo"); ("operand_2", Sv "damo")])])])])]); ("outputs", D [("outputCompare", D [("decorators", PList []); ("type", Sv "bool"); ("value", D [("operator", D [("type", Sv "less_than_or_equals"); ("operands", D [("operand_1", Sv "firstString"); ("operand_2", Sv "secondString")])])])])]); ("resources", D [("pip", D [("decorators", PList []); ("type", Sv "Microsoft.Network/publicIPAddresses"); ("api_version", Sv "2020-06-01"); ("existing", PBool false); ("config", D [("name", D [("operator", D [("type", Sv "property_accessor"); ("operands", D [("operand_1", Sv "publicIp"); ("operand_2", Sv "name")])])]); ("location", D [("operator", D [("type", Sv "property_accessor"); ("operands", D [("operand_1", Sv "publicIp"); ("operand_2", Sv "location")])])]); ("properties", D [("ddosSettings", D [("protectedIP", D [("operator", D [("type", Sv "less_than_or_equals"); ("operands", D [("operand_1", Sv "publicIpLabel"); ("operand_2", Sv "public")])])])]); ("publicIPAllocationMethod", Sv "Static")])])])])]) = true.
Proof. vm_compute. reflexivity. Qed.

(** tests/test_operator/examples/comparison/not_equals/main.bicep *)
Example ex_test_operator_comparison_not_equals : agrees false
"// https://docs.microsoft.com/en-us/azure/azure-resource-manager/bicep/operators-comparison#not-equal-

// int
param intEqual bool = 5 != 6

// bool
var firstBool = true != false

// string
var elementEqual = 'demo' != 'demo'

// array
var arrayEqual = [
  1
  2
  3
] != [
  1
  2
  3
]

var objectEqual = {
  prop2: 'val2'
  prop1: 'val1'
} != {
  prop1: 'valX'
  prop2: 'valY'
}

// elements
output elementEqual bool = firstString != secondString

// property
resource pip 'Microsoft.Network/publicIPAddresses@2020-06-01' = {
  name: publicIp.name
  location: publicIp.location
  properties: {
    ddosSettings: {
      protectedIP: publicIpLabel != 'internal'
    }
    publicIPAllocationMethod: 'Static'
  }
}
"
  (D [("globals", D [("scope", D [("value", Sv "resourceGroup")])]); ("parameters", D [("intEqual", D [("decorators", PList []); ("type", Sv "bool"); ("default", D [("operator", D [("type", Sv "not_equals"); ("operands", D [("operand_1", PInt (5)); ("operand_2", PInt (6))])])])])]); ("variables", D [("firstBool", D [("decorators", PList []); ("value", D [("operator", D [("type", Sv "not_equals"); ("operands", D [("operand_1", PBool true); ("operand_2", PBool false)])])])]); ("elementEqual", D [("decorators", PList []); ("value", D [("operator", D [("type", Sv "not_equals"); ("operands", D [("operand_1", Sv "demo"); ("operand_2", Sv "demo")])])])]); ("arrayEqual", D [("decorators", PList []); ("value", D [("operator", D [("type", Sv "not_equals"); ("operands", D [("operand_1", PList [PInt (1); PInt (2); PInt (3)]); ("operand_2", PList [PInt (1); PInt (2); PInt (3)])])])])]); ("objectEqual", D [("decorators", PList []); ("value", D [("operator", D [("type", Sv "not_equals"); ("operands", D [("operand_1", D [("prop2", Sv "val2"); ("prop1", Sv "val1")]); ("operand_2", D [("prop1", Sv "valX"); ("prop2", Sv "valY")])])])])])]); ("outputs", D [("elementEqual", D [("decorators", PList []); ("type", Sv "bool"); ("value", D [("operator", D [("type", Sv "not_equals"); ("operands", D [("operand_1", Sv "firstString"); ("operand_2", Sv "secondString")])])])])]); ("resources", D [("pip", D [("decorators", PList []); ("type", Sv "Microsoft.Network/publicIPAddresses"); ("api_version", Sv "2020-06-01"); ("existing", PBool false); ("config", D [("name", D [("operator", D [("type", Sv "property_accessor"); ("operands", D [("operand_1", Sv "publicIp"); ("operand_2", Sv "name")])])]); ("location", D [("operator", D [("type", Sv "property_accessor"); ("operands", D [("operand_1", Sv "publicIp"); ("operand_2", Sv "location")])])]); ("properties", D [("ddosSettings", D [("protectedIP", D [("operator", D [("type", Sv "not_equals"); ("operands", D [("operand_1", Sv "publicIpLabel"); ("operand_2", Sv "internal")])])])]); ("publicIPAllocationMethod", Sv "Static")])])])])]) = true.
Proof. vm_compute. reflexivity. Qed.

(** tests/test_operator/examples/comparison/not_equals_case_insensitive/main.bicep *)
Example ex_test_operator_comparison_not_equals_case_insensitive : agrees false
"// https://docs.microsoft.com/en-us/azure/azure-resource-manager/bicep/operators-comparison#not-equal-case-insensitive-

// parameter
param paramEqual bool = 'demo' !~ 'Demo'

// variable
var varEqual = 'demo' !~ 'Demo'

// output
output outputEqual bool = firstString !~ secondString

// resource
resource pip 'Microsoft.Network/publicIPAddresses@2020-06-01' = {
  name: publicIp.name
  location: publicIp.location
  properties: {
    ddosSettings: {
      protectedIP: publicIpLabel !~ 'internal'
    }
    publicIPAllocationMethod: 'Static'
  }
}
"
  (D [("globals", D [("scope", D [("value", Sv "resourceGroup")])]); ("parameters", D [("paramEqual", D [("decorators", PList []); ("type", Sv "bool"); ("default", D [("operator", D [("type", Sv "not_equals_case_insensitive"); ("operands", D [("operand_1", Sv "demo"); ("operand_2", Sv "Demo")])])])])]); ("variables", D [("varEqual", D [("decorators", PList []); ("value", D [("operator", D [("type", Sv "not_equals_case_insensitive"); ("operands", D [("operand_1", Sv "demo"); ("operand_2", Sv "Demo")])])])])]); ("outputs", D [("outputEqual", D [("decorators", PList []); ("type", Sv "bool"); ("value", D [("operator", D [("type", Sv "not_equals_case_insensitive"); ("operands", D [("operand_1", Sv "firstString"); ("operand_2", Sv "secondString")])])])])]); ("resources", D [("pip", D [("decorators", PList []); ("type", Sv "Microsoft.Network/publicIPAddresses"); ("api_version", Sv "2020-06-01"); ("existing", PBool false); ("config", D [("name", D [("operator", D [("type", Sv "property_accessor"); ("operands", D [("operand_1", Sv "publicIp"); ("operand_2", Sv "name")])])]); ("location", D [("operator", D [("type", Sv "property_accessor"); ("operands", D [("operand_1", Sv "publicIp"); ("operand_2", Sv "location")])])]); ("properties", D [("ddosSettings", D [("protectedIP", D [("operator", D [("type", Sv "not_equals_case_insensitive"); ("operands", D [("operand_1", Sv "publicIpLabel"); ("operand_2", Sv "internal")])])])]); ("publicIPAllocationMethod", Sv "Static")])])])])]) = true.
Proof. vm_compute. reflexivity. Qed.

(** tests/test_operator/examples/logical/and/main.bicep *)
Example ex_test_operator_logical_and : agrees false
"// https://docs.microsoft.com/en-us/azure/azure-resource-manager/bicep/operators-logical#and-

// param
param paramExpr bool = true && false

// var
var varExpr = true && false

// resource
resource managementGroup 'Microsoft.Management/managementGroups@2020-05-01' = {
  name: managementGroupId
  properties: {
    displayName: managementGroupDisplayName
    details: {
      parent: {
        id: varExpr && true
      }
    }
  }
}

// output
output outputExpr bool = paramExpr && varExpr

// more than two
output multiple bool = true && paramExpr && false && varExpr
"
  (D [("globals", D [("scope", D [("value", Sv "resourceGroup")])]); ("parameters", D [("paramExpr", D [("decorators", PList []); ("type", Sv "bool"); ("default", D [("operator", D [("type", Sv "and"); ("operands", D [("operand_1", PBool true); ("operand_2", PBool false)])])])])]); ("variables", D [("varExpr", D [("decorators", PList []); ("value", D [("operator", D [("type", Sv "and"); ("operands", D [("operand_1", PBool true); ("operand_2", PBool false)])])])])]); ("resources", D [("managementGroup", D [("decorators", PList []); ("type", Sv "Microsoft.Management/managementGroups"); ("api_version", Sv "2020-05-01"); ("existing", PBool false); ("config", D [("name", Sv "managementGroupId"); ("properties", D [("displayName", Sv "managementGroupDisplayName"); ("details", D [("parent", D [("id", D [("operator", D [("type", Sv "and"); ("operands", D [("operand_1", Sv "varExpr"); ("operand_2", PBool true)])])])])])])])])]); ("outputs", D [("outputExpr", D [("decorators", PList []); ("type", Sv "bool"); ("value", D [("operator", D [("type", Sv "and"); ("operands", D [("operand_1", Sv "paramExpr"); ("operand_2", Sv "varExpr")])])])]); ("multiple", D [("decorators", PList []); ("type", Sv "bool"); ("value", D [("operator", D [("type", Sv "and"); ("operands", D [("operand_1", PBool true); ("operand_2", D [("operator", D [("type", Sv "and"); ("operands", D [("operand_1", Sv "paramExpr"); ("operand_2", D [("operator", D [("type", Sv "and"); ("operands", D [("operand_1", PBool false); ("operand_2", Sv "varExpr")])])])])])])])])])])])]) = true.
Proof. vm_compute. reflexivity. Qed.

(** tests/test_operator/examples/logical/coalesce/main.bicep *)
Example ex_test_operator_logical_coalesce : agrees false
"// https://docs.microsoft.com/en-us/azure/azure-resource-manager/bicep/operators-logical#coalesce-

// param
param paramExpr bool = null ?? false

// var
var varExpr = null ?? null

// resource
resource managementGroup 'Microsoft.Management/managementGroups@2020-05-01' = {
  name: managementGroupId
  properties: {
    displayName: managementGroupDisplayName
    details: {
      parent: {
        id: varExpr ?? true
      }
    }
  }
}

// output
output outputExpr bool = paramExpr && varExpr

// more than two
output multiple bool = null && paramExpr && null && varExpr
"
  (D [("globals", D [("scope", D [("value", Sv "resourceGroup")])]); ("parameters", D [("paramExpr", D [("decorators", PList []); ("type", Sv "bool"); ("default", D [("operator", D [("type", Sv "coalesce"); ("operands", D [("operand_1", PNone); ("operand_2", PBool false)])])])])]); ("variables", D [("varExpr", D [("decorators", PList []); ("value", D [("operator", D [("type", Sv "coalesce"); ("operands", D [("operand_1", PNone); ("operand_2", PNone)])])])])]); ("resources", D [("managementGroup", D [("decorators", PList []); ("type", Sv "Microsoft.Management/managementGroups"); ("api_version", Sv "2020-05-01"); ("existing", PBool false); ("config", D [("name", Sv "managementGroupId"); ("properties", D [("displayName", Sv "managementGroupDisplayName"); ("details", D [("parent", D [("id", D [("operator", D [("type", Sv "coalesce"); ("operands", D [("operand_1", Sv "varExpr"); ("operand_2", PBool true)])])])])])])])])]); ("outputs", D [("outputExpr", D [("decorators", PList []); ("type", Sv "bool"); ("value", D [("operator", D [("type", Sv "and"); ("operands", D [("operand_1", Sv "paramExpr"); ("operand_2", Sv "varExpr")])])])]); ("multiple", D [("decorators", PList []); ("type", Sv "bool"); ("value", D [("operator", D [("type", Sv "and"); ("operands", D [("operand_1", PNone); ("operand_2", D [("operator", D [("type", Sv "and"); ("operands", D [("operand_1", Sv "paramExpr"); ("operand_2", D [("operator", D [("type", Sv "and"); ("operands", D [("operand_1", PNone); ("operand_2", Sv "varExpr")])])])])])])])])])])])]) = true.
Proof. vm_compute. reflexivity. Qed.

(** tests/test_operator/examples/logical/conditional/main.bicep *)
Example ex_test_operator_logical_conditional : agrees false
"// https://docs.microsoft.com/en-us/azure/azure-resource-manager/bicep/operators-logical#conditional-expression--

// var
var subnetId = createNewVnet ? subnet.id : resourceId(vnetResourceGroupName, 'Microsoft.Network/virtualNetworks/subnets', vnetName, subnetName)

// resource
resource managementGroup 'Microsoft.Management/managementGroups@2020-05-01' = {
  name: managementGroupId
  properties: {
    displayName: managementGroupDisplayName
    details: {
      parent: {
        id: (empty(parentManagementGroupId)) ? '/providers/Microsoft.Management/managementGroups/${parentManagementGroupId}' : null
      }
    }
  }
}

// output
output endpoint string = deployStorage ? myStorageAccount.properties.primaryEndpoints.blob : ''
"
  (D [("globals", D [("scope", D [("value", Sv "resourceGroup")])]); ("variables", D [("subnetId", D [("decorators", PList []); ("value", D [("operator", D [("type", Sv "conditional"); ("operands", D [("condition", Sv "createNewVnet"); ("true_value", D [("operator", D [("type", Sv "property_accessor"); ("operands", D [("operand_1", Sv "subnet"); ("operand_2", Sv "id")])])]); ("false_value", D [("function", D [("type", Sv "resource_id"); ("parameters", D [("resource_type", Sv "Microsoft.Network/virtualNetworks/subnets"); ("resource_name_1", Sv "vnetName"); ("resource_name_2", Sv "subnetName"); ("resource_group_name", Sv "vnetResourceGroupName"); ("subscription_id", PNone)])])])])])])])]); ("resources", D [("managementGroup", D [("decorators", PList []); ("type", Sv "Microsoft.Management/managementGroups"); ("api_version", Sv "2020-05-01"); ("existing", PBool false); ("config", D [("name", Sv "managementGroupId"); ("properties", D [("displayName", Sv "managementGroupDisplayName"); ("details", D [("parent", D [("id", D [("operator", D [("type", Sv "conditional"); ("operands", D [("condition", D [("function", D [("type", Sv "empty"); ("parameters", D [("item_to_test", Sv "parentManagementGroupId")])])]); ("true_value", Sv "/providers/Microsoft.Management/managementGroups/${parentManagementGroupId}"); ("false_value", PNone)])])])])])])])])]); ("outputs", D [("endpoint", D [("decorators", PList []); ("type", Sv "string"); ("value", D [("operator", D [("type", Sv "conditional"); ("operands", D [("condition", Sv "deployStorage"); ("true_value", D [("operator", D [("type", Sv "property_accessor"); ("operands", D [("operand_1", Sv "myStorageAccount"); ("operand_2", D [("operator", D [("type", Sv "property_accessor"); ("operands", D [("operand_1", Sv "properties"); ("operand_2", D [("operator", D [("type", Sv "property_accessor"); ("operands", D [("operand_1", Sv "primaryEndpoints"); ("operand_2", Sv "blob")])])])])])])])])]); ("false_value", Sv "")])])])])])]) = true.
Proof. vm_compute. reflexivity. Qed.

(** tests/test_operator/examples/logical/not/main.bicep *)
Example ex_test_operator_logical_not : agrees false
"// https://learn.microsoft.com/en-us/azure/azure-resource-manager/bicep/operators-logical#not-

// param
param paramExpr bool = !true

// var
var varExpr = !false

// resource
resource managementGroup 'Microsoft.Management/managementGroups@2020-05-01' = {
  name: managementGroupId
  properties: {
    displayName: managementGroupDisplayName
    details: {
      parent: {
        id: !varExpr
      }
    }
  }
}

// output
output outputExpr bool = !(paramExpr)
output multiple bool = !(!true)
"
  (D [("globals", D [("scope", D [("value", Sv "resourceGroup")])]); ("parameters", D [("paramExpr", D [("decorators", PList []); ("type", Sv "bool"); ("default", D [("operator", D [("type", Sv "not"); ("operands", D [("bool_value", PBool true)])])])])]); ("variables", D [("varExpr", D [("decorators", PList []); ("value", D [("operator", D [("type", Sv "not"); ("operands", D [("bool_value", PBool false)])])])])]); ("resources", D [("managementGroup", D [("decorators", PList []); ("type", Sv "Microsoft.Management/managementGroups"); ("api_version", Sv "2020-05-01"); ("existing", PBool false); ("config", D [("name", Sv "managementGroupId"); ("properties", D [("displayName", Sv "managementGroupDisplayName"); ("details", D [("parent", D [("id", D [("operator", D [("type", Sv "not"); ("operands", D [("bool_value", Sv "varExpr")])])])])])])])])]); ("outputs", D [("outputExpr", D [("decorators", PList []); ("type", Sv "bool"); ("value", D [("operator", D [("type", Sv "not"); ("operands", D [("bool_value", Sv "paramExpr")])])])]); ("multiple", D [("decorators", PList []); ("type", Sv "bool"); ("value", D [("operator", D [("type", Sv "not"); ("operands", D [("bool_value", D [("operator", D [("type", Sv "not"); ("operands", D [("bool_value", PBool true)])])])])])])])])]) = true.
Proof. vm_compute. reflexivity. Qed.

(** tests/test_operator/examples/logical/or/main.bicep *)
Example ex_test_operator_logical_or : agrees false
"// https://docs.microsoft.com/en-us/azure/azure-resource-manager/bicep/operators-logical#or-

// param
param paramExpr bool = true || false

// var
var varExpr = true || false

// resource
resource managementGroup 'Microsoft.Management/managementGroups@2020-05-01' = {
  name: managementGroupId
  properties: {
    displayName: managementGroupDisplayName
    details: {
      parent: {
        id: varExpr || true
      }
    }
  }
}

// output
output outputExpr bool = paramExpr || varExpr

// more than two
output multiple bool = true || paramExpr || false || varExpr
"
  (D [("globals", D [("scope", D [("value", Sv "resourceGroup")])]); ("parameters", D [("paramExpr", D [("decorators", PList []); ("type", Sv "bool"); ("default", D [("operator", D [("type", Sv "or"); ("operands", D [("operand_1", PBool true); ("operand_2", PBool false)])])])])]); ("variables", D [("varExpr", D [("decorators", PList []); ("value", D [("operator", D [("type", Sv "or"); ("operands", D [("operand_1", PBool true); ("operand_2", PBool false)])])])])]); ("resources", D [("managementGroup", D [("decorators", PList []); ("type", Sv "Microsoft.Management/managementGroups"); ("api_version", Sv "2020-05-01"); ("existing", PBool false); ("config", D [("name", Sv "managementGroupId"); ("properties", D [("displayName", Sv "managementGroupDisplayName"); ("details", D [("parent", D [("id", D [("operator", D [("type", Sv "or"); ("operands", D [("operand_1", Sv "varExpr"); ("operand_2", PBool true)])])])])])])])])]); ("outputs", D [("outputExpr", D [("decorators", PList []); ("type", Sv "bool"); ("value", D [("operator", D [("type", Sv "or"); ("operands", D [("operand_1", Sv "paramExpr"); ("operand_2", Sv "varExpr")])])])]); ("multiple", D [("decorators", PList []); ("type", Sv "bool"); ("value", D [("operator", D [("type", Sv "or"); ("operands", D [("operand_1", PBool true); ("operand_2", D [("operator", D [("type", Sv "or"); ("operands", D [("operand_1", Sv "paramExpr"); ("operand_2", D [("operator", D [("type", Sv "or"); ("operands", D [("operand_1", PBool false); ("operand_2", Sv "varExpr")])])])])])])])])])])])]) = true.
Proof. vm_compute. reflexivity. Qed.

(** tests/test_operator/examples/numeric/add/main.bicep *)
Example ex_test_operator_numeric_add : agrees false
"// https://docs.microsoft.com/en-us/azure/azure-resource-manager/bicep/operators-numeric#add-

// param
param paramExpr int = 1 + 2

// var
var varExpr = 2+3

// resource
resource managementGroup 'Microsoft.Management/managementGroups@2020-05-01' = {
  name: managementGroupId
  properties: {
    displayName: managementGroupDisplayName
    details: {
      parent: {
        id: varExpr + 5
      }
    }
  }
}

// output
output outputExpr int = paramExpr + varExpr

// more than two
output multiple int = (paramExpr + varExpr + 5)
"
  (D [("globals", D [("scope", D [("value", Sv "resourceGroup")])]); ("parameters", D [("paramExpr", D [("decorators", PList []); ("type", Sv "int"); ("default", D [("operator", D [("type", Sv "add"); ("operands", D [("operand_1", PInt (1)); ("operand_2", PInt (2))])])])])]); ("variables", D [("varExpr", D [("decorators", PList []); ("value", D [("operator", D [("type", Sv "add"); ("operands", D [("operand_1", PInt (2)); ("operand_2", PInt (3))])])])])]); ("resources", D [("managementGroup", D [("decorators", PList []); ("type", Sv "Microsoft.Management/managementGroups"); ("api_version", Sv "2020-05-01"); ("existing", PBool false); ("config", D [("name", Sv "managementGroupId"); ("properties", D [("displayName", Sv "managementGroupDisplayName"); ("details", D [("parent", D [("id", D [("operator", D [("type", Sv "add"); ("operands", D [("operand_1", Sv "varExpr"); ("operand_2", PInt (5))])])])])])])])])]); ("outputs", D [("outputExpr", D [("decorators", PList []); ("type", Sv "int"); ("value", D [("operator", D [("type", Sv "add"); ("operands", D [("operand_1", Sv "paramExpr"); ("operand_2", Sv "varExpr")])])])]); ("multiple", D [("decorators", PList []); ("type", Sv "int"); ("value", D [("operator", D [("type", Sv "add"); ("operands", D [("operand_1", Sv "paramExpr"); ("operand_2", D [("operator", D [("type", Sv "add"); ("operands", D [("operand_1", Sv "varExpr"); ("operand_2", PInt (5))])])])])])])])])]) = true.
Proof. vm_compute. reflexivity. Qed.

(** tests/test_operator/examples/numeric/divide/main.bicep *)
Example ex_test_operator_numeric_divide : agrees false
"// https://docs.microsoft.com/en-us/azure/azure-resource-manager/bicep/operators-numeric#divide-

// param
param paramExpr int = 1 / 2

// var
var varExpr = 2/3

// resource
resource managementGroup 'Microsoft.Management/managementGroups@2020-05-01' = {
  name: managementGroupId
  properties: {
    displayName: managementGroupDisplayName
    details: {
      parent: {
        id: varExpr / 5
      }
    }
  }
}

// output
output outputExpr int = paramExpr / varExpr

// more than two
output multiple int = (paramExpr / varExpr / 5)
"
  (D [("globals", D [("scope", D [("value", Sv "resourceGroup")])]); ("parameters", D [("paramExpr", D [("decorators", PList []); ("type", Sv "int"); ("default", D [("operator", D [("type", Sv "divide"); ("operands", D [("operand_1", PInt (1)); ("operand_2", PInt (2))])])])])]); ("variables", D [("varExpr", D [("decorators", PList []); ("value", D [("operator", D [("type", Sv "divide"); ("operands", D [("operand_1", PInt (2)); ("operand_2", PInt (3))])])])])]); ("resources", D [("managementGroup", D [("decorators", PList []); ("type", Sv "Microsoft.Management/managementGroups"); ("api_version", Sv "2020-05-01"); ("existing", PBool false); ("config", D [("name", Sv "managementGroupId"); ("properties", D [("displayName", Sv "managementGroupDisplayName"); ("details", D [("parent", D [("id", D [("operator", D [("type", Sv "divide"); ("operands", D [("operand_1", Sv "varExpr"); ("operand_2", PInt (5))])])])])])])])])]); ("outputs", D [("outputExpr", D [("decorators", PList []); ("type", Sv "int"); ("value", D [("operator", D [("type", Sv "divide"); ("operands", D [("operand_1", Sv "paramExpr"); ("operand_2", Sv "varExpr")])])])]); ("multiple", D [("decorators", PList []); ("type", Sv "int"); ("value", D [("operator", D [("type", Sv "divide"); ("operands", D [("operand_1", Sv "paramExpr"); ("operand_2", D [("operator", D [("type", Sv "divide"); ("operands", D [("operand_1", Sv "varExpr"); ("operand_2", PInt (5))])])])])])])])])]) = true.
Proof. vm_compute. reflexivity. Qed.

(** tests/test_operator/examples/numeric/minus/main.bicep *)
Example ex_test_operator_numeric_minus : agrees false
"// https://docs.microsoft.com/en-us/azure/azure-resource-manager/bicep/operators-numeric#minus--

// param
param paramExpr int = - 2

// var
var varExpr = -4

// resource
resource managementGroup 'Microsoft.Management/managementGroups@2020-05-01' = {
  name: managementGroupId
  properties: {
    displayName: managementGroupDisplayName
    details: {
      parent: {
        id: -varExpr
      }
    }
  }
}

// output
output outputExpr int = -(5)

// more than two
output multiple bool = -(-5)
"
  (D [("globals", D [("scope", D [("value", Sv "resourceGroup")])]); ("parameters", D [("paramExpr", D [("decorators", PList []); ("type", Sv "int"); ("default", D [("operator", D [("type", Sv "minus"); ("operands", D [("integer_value", PInt (2))])])])])]); ("variables", D [("varExpr", D [("decorators", PList []); ("value", D [("operator", D [("type", Sv "minus"); ("operands", D [("integer_value", PInt (4))])])])])]); ("resources", D [("managementGroup", D [("decorators", PList []); ("type", Sv "Microsoft.Management/managementGroups"); ("api_version", Sv "2020-05-01"); ("existing", PBool false); ("config", D [("name", Sv "managementGroupId"); ("properties", D [("displayName", Sv "managementGroupDisplayName"); ("details", D [("parent", D [("id", D [("operator", D [("type", Sv "minus"); ("operands", D [("integer_value", Sv "varExpr")])])])])])])])])]); ("outputs", D [("outputExpr", D [("decorators", PList []); ("type", Sv "int"); ("value", D [("operator", D [("type", Sv "minus"); ("operands", D [("integer_value", PInt (5))])])])]); ("multiple", D [("decorators", PList []); ("type", Sv "bool"); ("value", D [("operator", D [("type", Sv "minus"); ("operands", D [("integer_value", D [("operator", D [("type", Sv "minus"); ("operands", D [("integer_value", PInt (5))])])])])])])])])]) = true.
Proof. vm_compute. reflexivity. Qed.

(** tests/test_operator/examples/numeric/modulo/main.bicep *)
Example ex_test_operator_numeric_modulo : agrees false
"// https://docs.microsoft.com/en-us/azure/azure-resource-manager/bicep/operators-numeric#modulo-

// param
param paramExpr int = 1 % 2

// var
var varExpr = 2%3

// resource
resource managementGroup 'Microsoft.Management/managementGroups@2020-05-01' = {
  name: managementGroupId
  properties: {
    displayName: managementGroupDisplayName
    details: {
      parent: {
        id: varExpr % 5
      }
    }
  }
}

// output
output outputExpr int = paramExpr % varExpr

// more than two
output multiple int = (paramExpr % varExpr % 5)
"
  (D [("globals", D [("scope", D [("value", Sv "resourceGroup")])]); ("parameters", D [("paramExpr", D [("decorators", PList []); ("type", Sv "int"); ("default", D [("operator", D [("type", Sv "modulo"); ("operands", D [("operand_1", PInt (1)); ("operand_2", PInt (2))])])])])]); ("variables", D [("varExpr", D [("decorators", PList []); ("value", D [("operator", D [("type", Sv "modulo"); ("operands", D [("operand_1", PInt (2)); ("operand_2", PInt (3))])])])])]); ("resources", D [("managementGroup", D [("decorators", PList []); ("type", Sv "Microsoft.Management/managementGroups"); ("api_version", Sv "2020-05-01"); ("existing", PBool false); ("config", D [("name", Sv "managementGroupId"); ("properties", D [("displayName", Sv "managementGroupDisplayName"); ("details", D [("parent", D [("id", D [("operator", D [("type", Sv "modulo"); ("operands", D [("operand_1", Sv "varExpr"); ("operand_2", PInt (5))])])])])])])])])]); ("outputs", D [("outputExpr", D [("decorators", PList []); ("type", Sv "int"); ("value", D [("operator", D [("type", Sv "modulo"); ("operands", D [("operand_1", Sv "paramExpr"); ("operand_2", Sv "varExpr")])])])]); ("multiple", D [("decorators", PList []); ("type", Sv "int"); ("value", D [("operator", D [("type", Sv "modulo"); ("operands", D [("operand_1", Sv "paramExpr"); ("operand_2", D [("operator", D [("type", Sv "modulo"); ("operands", D [("operand_1", Sv "varExpr"); ("operand_2", PInt (5))])])])])])])])])]) = true.
Proof. vm_compute. reflexivity. Qed.

(** tests/test_operator/examples/numeric/multiply/main.bicep *)
Example ex_test_operator_numeric_multiply : agrees false
"// https://docs.microsoft.com/en-us/azure/azure-resource-manager/bicep/operators-numeric#multiply-

// param
param paramExpr int = 1 * 2

// var
var varExpr = 2*3

// resource
resource managementGroup 'Microsoft.Management/managementGroups@2020-05-01' = {
  name: managementGroupId
  properties: {
    displayName: managementGroupDisplayName
    details: {
      parent: {
        id: varExpr * 5
      }
    }
  }
}

// output
output outputExpr int = paramExpr * varExpr

// more than two
output multiple int = (paramExpr * varExpr * 5)
"
  (D [("globals", D [("scope", D [("value", Sv "resourceGroup")])]); ("parameters", D [("paramExpr", D [("decorators", PList []); ("type", Sv "int"); ("default", D [("operator", D [("type", Sv "multiply"); ("operands", D [("operand_1", PInt (1)); ("operand_2", PInt (2))])])])])]); ("variables", D [("varExpr", D [("decorators", PList []); ("value", D [("operator", D [("type", Sv "multiply"); ("operands", D [("operand_1", PInt (2)); ("operand_2", PInt (3))])])])])]); ("resources", D [("managementGroup", D [("decorators", PList []); ("type", Sv "Microsoft.Management/managementGroups"); ("api_version", Sv "2020-05-01"); ("existing", PBool false); ("config", D [("name", Sv "managementGroupId"); ("properties", D [("displayName", Sv "managementGroupDisplayName"); ("details", D [("parent", D [("id", D [("operator", D [("type", Sv "multiply"); ("operands", D [("operand_1", Sv "varExpr"); ("operand_2", PInt (5))])])])])])])])])]); ("outputs", D [("outputExpr", D [("decorators", PList []); ("type", Sv "int"); ("value", D [("operator", D [("type", Sv "multiply"); ("operands", D [("operand_1", Sv "paramExpr"); ("operand_2", Sv "varExpr")])])])]); ("multiple", D [("decorators", PList []); ("type", Sv "int"); ("value", D [("operator", D [("type", Sv "multiply"); ("operands", D [("operand_1", Sv "paramExpr"); ("operand_2", D [("operator", D [("type", Sv "multiply"); ("operands", D [("operand_1", Sv "varExpr"); ("operand_2", PInt (5))])])])])])])])])]) = true.
Proof. vm_compute. reflexivity. Qed.

(** tests/test_operator/examples/numeric/substract/main.bicep *)
Example ex_test_operator_numeric_substract : agrees false
"// https://docs.microsoft.com/en-us/azure/azure-resource-manager/bicep/operators-numeric#subtract--

// param
param paramExpr int = 1 - 2

// var
var varExpr = 2-3

// resource
resource managementGroup 'Microsoft.Management/managementGroups@2020-05-01' = {
  name: managementGroupId
  properties: {
    displayName: managementGroupDisplayName
    details: {
      parent: {
        id: varExpr - 5
      }
    }
  }
}

// output
output outputExpr int = paramExpr - varExpr

// more than two
output multiple int = (paramExpr - varExpr - 5)
"
  (D [("globals", D [("scope", D [("value", Sv "resourceGroup")])]); ("parameters", D [("paramExpr", D [("decorators", PList []); ("type", Sv "int"); ("default", D [("operator", D [("type", Sv "substract"); ("operands", D [("operand_1", PInt (1)); ("operand_2", PInt (2))])])])])]); ("variables", D [("varExpr", D [("decorators", PList []); ("value", D [("operator", D [("type", Sv "substract"); ("operands", D [("operand_1", PInt (2)); ("operand_2", PInt (3))])])])])]); ("resources", D [("managementGroup", D [("decorators", PList []); ("type", Sv "Microsoft.Management/managementGroups"); ("api_version", Sv "2020-05-01"); ("existing", PBool false); ("config", D [("name", Sv "managementGroupId"); ("properties", D [("displayName", Sv "managementGroupDisplayName"); ("details", D [("parent", D [("id", D [("operator", D [("type", Sv "substract"); ("operands", D [("operand_1", Sv "varExpr"); ("operand_2", PInt (5))])])])])])])])])]); ("outputs", D [("outputExpr", D [("decorators", PList []); ("type", Sv "int"); ("value", D [("operator", D [("type", Sv "substract"); ("operands", D [("operand_1", Sv "paramExpr"); ("operand_2", Sv "varExpr")])])])]); ("multiple", D [("decorators", PList []); ("type", Sv "int"); ("value", D [("operator", D [("type", Sv "substract"); ("operands", D [("operand_1", Sv "paramExpr"); ("operand_2", D [("operator", D [("type", Sv "substract"); ("operands", D [("operand_1", Sv "varExpr"); ("operand_2", PInt (5))])])])])])])])])]) = true.
Proof. vm_compute. reflexivity. Qed.

(** tests/test_operator/examples/safe_dereference/main.bicep *)
Example ex_test_operator_safe_dereference : agrees false
"// https://learn.microsoft.com/en-us/azure/azure-resource-manager/bicep/operator-safe-dereference

// resource
resource storage 'Microsoft.Storage/storageAccounts@2023-04-01' = [for i in range(0, storageCount): {
  name: storageAccountSettings[?i].?name ?? 'defaultname'
  location: storageAccountSettings[?i].?location ?? location
  kind: storageAccountSettings[?i].?kind ?? 'StorageV2'
  sku: {
    name: storageAccountSettings[?i].?sku ?? 'Standard_GRS'
  }
}]
"
  (D [("globals", D [("scope", D [("value", Sv "resourceGroup")])]); ("resources", D [("storage", D [("decorators", PList []); ("type", Sv "Microsoft.Storage/storageAccounts"); ("api_version", Sv "2023-04-01"); ("existing", PBool false); ("config", D [("loop_type", D [("type", Sv "array"); ("detail", D [("item_name", Sv "i"); ("array_name", D [("function", D [("type", Sv "range"); ("parameters", D [("start_index", PInt (0)); ("count", Sv "storageCount")])])])])]); ("condition", PNone); ("config", D [("name", D [("operator", D [("type", Sv "property_accessor"); ("operands", D [("operand_1", D [("operator", D [("type", Sv "index_accessor"); ("operands", D [("operand_1", Sv "storageAccountSettings"); ("operand_2", Sv "i")])])]); ("operand_2", D [("operator", D [("type", Sv "coalesce"); ("operands", D [("operand_1", Sv "name"); ("operand_2", Sv "defaultname")])])])])])]); ("location", D [("operator", D [("type", Sv "property_accessor"); ("operands", D [("operand_1", D [("operator", D [("type", Sv "index_accessor"); ("operands", D [("operand_1", Sv "storageAccountSettings"); ("operand_2", Sv "i")])])]); ("operand_2", D [("operator", D [("type", Sv "coalesce"); ("operands", D [("operand_1", Sv "location"); ("operand_2", Sv "location")])])])])])]); ("kind", D [("operator", D [("type", Sv "property_accessor"); ("operands", D [("operand_1", D [("operator", D [("type", Sv "index_accessor"); ("operands", D [("operand_1", Sv "storageAccountSettings"); ("operand_2", Sv "i")])])]); ("operand_2", D [("operator", D [("type", Sv "coalesce"); ("operands", D [("operand_1", Sv "kind"); ("operand_2", Sv "StorageV2")])])])])])]); ("sku", D [("name", D [("operator", D [("type", Sv "property_accessor"); ("operands", D [("operand_1", D [("operator", D [("type", Sv "index_accessor"); ("operands", D [("operand_1", Sv "storageAccountSettings"); ("operand_2", Sv "i")])])]); ("operand_2", D [("operator", D [("type", Sv "coalesce"); ("operands", D [("operand_1", Sv "sku"); ("operand_2", Sv "Standard_GRS")])])])])])])])])])])])]) = true.
Proof. vm_compute. reflexivity. Qed.
