(** The text of the modules of pycep, character by character, as pieces to be put
    one after the other (in a Coq string a quotation mark is written twice). *)
From Coq Require Import List String.
Import ListNotations.
Local Open Scope string_scope.

(** pycep/utils.py:1-27 *)
Definition utils_py : list string := [
"from __future__ import annotations

from typing import TYPE_CHECKING

from pycep.models import BicepElement

if TYPE_CHECKING:
    from lark import Token


def transform_string_token(value: Token) -> str | BicepElement:
    """"""Transforms string typed Token to a `str` or `BicepElement`.

    Additionally, removes surrounding single quotes.
    """"""
    if value.type == ""MULTI_LINE_STRING"":
        return sanitize_multi_line_string_token(value)

    if value.type not in (""QUOTED_STRING"", ""QUOTED_INTERPOLATION""):
        return BicepElement(value)

    return str(value)[1:-1]


def sanitize_multi_line_string_token(value: Token) -> str:
    """"""Sanitizes multi-line string typed Token.""""""
    return str(value)[3:-3].removeprefix(""\n"")
"].

(** pycep/models.py:1-5 *)
Definition models_py : list string := [
"from __future__ import annotations


class BicepElement(str):  # ruff:ignore[subclass-builtin]
    """"""An alias to differentiate between a string and a Bicep element.""""""
"].

(** pycep/validator.py:1-8 *)
Definition validator_py : list string := [
"class BicepValidator:
    @staticmethod
    def is_valid(bicep_text: str) -> bool:
        return BicepValidator.multi_line_string_valid(bicep_text)

    @staticmethod
    def multi_line_string_valid(bicep_text: str) -> bool:
        return bicep_text.count(""'''"") % 2 == 0
"].

(** pycep/main.py:1-52 *)
Definition main_py : list string := [
"from __future__ import annotations

from importlib.resources import files
from typing import TYPE_CHECKING

from lark import Lark, Token, Tree

from .transformer import BicepToJson
from .validator import BicepValidator

if TYPE_CHECKING:
    from pathlib import Path

    from pycep import typing as pycep_typing


LARK_GRAMMAR = (files(__package__) / ""bicep.lark"").read_text()  # ty: ignore[invalid-argument-type] # can't be `None` here


class BicepParser:
    """"""Wrapper class for Lark""""""

    def __init__(self, *, add_line_numbers: bool = False, cache: bool = True) -> None:
        self.add_line_numbers = add_line_numbers
        self.lark_parser = Lark(grammar=LARK_GRAMMAR, parser=""lalr"", propagate_positions=True, regex=True, cache=cache)

    def parse(self, *, text: str | None = None, file_path: Path | None = None) -> pycep_typing.BicepJson:
        tree = self._create_tree(text=text, file_path=file_path)
        return BicepToJson(add_line_numbers=self.add_line_numbers).transform(tree)

    def create_tree(self, *, text: str | None = None, file_path: Path | None = None) -> str:
        tree = self._create_tree(text=text, file_path=file_path)
        return tree.pretty()

    def _create_tree(self, text: str | None, file_path: Path | None) -> Tree[Token]:
        if text and file_path:
            raise TypeError(""Either 'text' or 'file_path' can be set"")

        if text:
            bicep_text = text
        elif file_path:
            bicep_text = file_path.read_text()
        else:
            raise TypeError(""Either 'text' or 'file_path' has to be set"")

        if not BicepValidator.is_valid(bicep_text):
            if file_path:
                raise ValueError(f""{file_path} file content is invalid"")

            raise ValueError(""Text is invalid"")

        return self.lark_parser.parse(bicep_text)
"].

(** pycep/rules/decorators.py:1-147 *)
Definition decorators_py : list string := [
"from __future__ import annotations

from typing import TYPE_CHECKING, Any

if TYPE_CHECKING:
    from collections.abc import Callable

    from lark import Token

    from pycep import typing as pycep_typing

####################
#
# decorators
#
####################


def deco_allowed(_deco_name: str, args: tuple[list[int | str]]) -> pycep_typing.DecoratorAllowed:
    return {
        ""type"": ""allowed"",
        ""argument"": args[0],
    }


def deco_batch(_deco_name: str, args: tuple[int]) -> pycep_typing.DecoratorBatchSize:
    return {
        ""type"": ""batchSize"",
        ""argument"": args[0],
    }


def deco_description(_deco_name: str, args: tuple[str]) -> pycep_typing.DecoratorDescription:
    return {
        ""type"": ""description"",
        ""argument"": args[0],
    }


def deco_export(_deco_name: str, _args: tuple[None]) -> pycep_typing.DecoratorExport:
    return {
        ""type"": ""export"",
    }


def deco_min_len(_deco_name: str, args: tuple[int]) -> pycep_typing.DecoratorMinLength:
    return {
        ""type"": ""min_length"",
        ""argument"": args[0],
    }


def deco_max_len(_deco_name: str, args: tuple[int]) -> pycep_typing.DecoratorMaxLength:
    return {
        ""type"": ""max_length"",
        ""argument"": args[0],
    }


def deco_min_val(_deco_name: str, args: tuple[int | dict[str, Any]]) -> pycep_typing.DecoratorMinValue:
    arg = args[0]
    if isinstance(arg, dict) and (operator := arg.get(""operator"", {})).get(""type"") == ""minus"":
        arg = operator[""operands""][""integer_value""] * -1

    return {  # ty: ignore[invalid-return-type] # there is no real issue if this returns a dict
        ""type"": ""min_value"",
        ""argument"": arg,  # ty: ignore[invalid-argument-type]
    }


def deco_max_val(_deco_name: str, args: tuple[Token]) -> pycep_typing.DecoratorMaxValue:
    return {
        ""type"": ""max_value"",
        ""argument"": int(args[0]),
    }


def deco_metadata(_deco_name: str, args: tuple[dict[str, Any]]) -> pycep_typing.DecoratorMetadata:
    return {
        ""type"": ""metadata"",
        ""argument"": args[0],
    }


def deco_sealed(_deco_name: str, _args: tuple[None]) -> pycep_typing.DecoratorSealed:
    return {
        ""type"": ""sealed"",
    }


def deco_secure(_deco_name: str, _args: tuple[None]) -> pycep_typing.DecoratorSecure:
    return {
        ""type"": ""secure"",
    }


####################
#
# placeholder for unknown decorators
#
####################


def unknown_deco(deco_name: str, args: tuple[pycep_typing.PossibleValue]) -> pycep_typing.UnknownDecorator:
    result: pycep_typing.UnknownDecorator = {
        ""type"": deco_name,
    }

    if args:
        result[""argument""] = args[0]

    return result


####################
#
# exposed collections
#
####################

DECORATORS: dict[str, Callable[[str, Any], pycep_typing.Decorator]] = {
    ""allowed"": deco_allowed,
    ""sys.allowed"": deco_allowed,
    ""batchSize"": deco_batch,
    ""sys.batchSize"": deco_batch,
    ""description"": deco_description,
    ""sys.description"": deco_description,
    ""export"": deco_export,
    ""sys.export"": deco_export,
    ""minLength"": deco_min_len,
    ""sys.minLength"": deco_min_len,
    ""maxLength"": deco_max_len,
    ""sys.maxLength"": deco_max_len,
    ""minValue"": deco_min_val,
    ""sys.minValue"": deco_min_val,
    ""maxValue"": deco_max_val,
    ""sys.maxValue"": deco_max_val,
    ""metadata"": deco_metadata,
    ""sys.metadata"": deco_metadata,
    ""sealed"": deco_sealed,
    ""sys.sealed"": deco_sealed,
    ""secure"": deco_secure,
    ""sys.secure"": deco_secure,
}


UNKNOWN_DECORATOR = unknown_deco
"].

(** pycep/rules/functions.py:1-1177 *)
Definition functions_py : list string := [
"from __future__ import annotations

from typing import TYPE_CHECKING, Any, cast

if TYPE_CHECKING:
    from collections.abc import Callable

    from lark import Token

    from pycep import typing as pycep_typing


####################
#
# functions - any
#
####################


def any_func(_func_name: str, args: tuple[pycep_typing.PossibleValue]) -> pycep_typing.AnyFunc:
    return {
        ""type"": ""any"",
        ""parameters"": {
            ""value"": args[0],
        },
    }


####################
#
# functions - array
#
####################


def array_func(_func_name: str, args: tuple[pycep_typing.PossibleValue, ...]) -> pycep_typing.Array:
    return {
        ""type"": ""array"",
        ""parameters"": {
            ""convert_to_array"": args[0],
        },
    }


def concat(_func_name: str, args: tuple[pycep_typing.PossibleValue, ...]) -> pycep_typing.Concat:
    arg_1, *arg_x = args

    return {  # ty: ignore[invalid-return-type] # dynamic operand creation
        ""type"": ""concat"",
        ""parameters"": {  # ty: ignore[missing-typed-dict-key]
            ""arg_1"": arg_1,
            **{f""arg_{idx + 2}"": arg for idx, arg in enumerate(arg_x)},
        },
    }


def contains(
    _func_name: str, args: tuple[pycep_typing.PossibleValue, pycep_typing.PossibleValue]
) -> pycep_typing.Contains:
    container, item_to_find = args

    return {
        ""type"": ""contains"",
        ""parameters"": {
            ""container"": container,
            ""item_to_find"": item_to_find,
        },
    }


def empty(_func_name: str, args: tuple[pycep_typing.PossibleValue]) -> pycep_typing.Empty:
    return {
        ""type"": ""empty"",
        ""parameters"": {
            ""item_to_test"": args[0],
        },
    }


def first(_func_name: str, args: tuple[pycep_typing.PossibleValue]) -> pycep_typing.First:
    return {
        ""type"": ""first"",
        ""parameters"": {
            ""arg_1"": args[0],
        },
    }


def flatten(_func_name: str, args: tuple[pycep_typing.PossibleValue]) -> pycep_typing.Flatten:
    return {
        ""type"": ""flatten"",
        ""parameters"": {
            ""array_to_flattern"": args[0],
        },
    }


def intersection(_func_name: str, args: tuple[str, ...]) -> pycep_typing.Intersection:
    arg_1, arg_2, *arg_x = args

    result: pycep_typing.Intersection = {
        ""type"": ""intersection"",
        ""parameters"": {
            ""arg_1"": arg_1,
            ""arg_2"": arg_2,
            **{f""arg_{idx + 3}"": arg for idx, arg in enumerate(arg_x)},
        },
    }

    return result


def last(_func_name: str, args: tuple[pycep_typing.PossibleValue]) -> pycep_typing.Last:
    return {
        ""type"": ""last"",
        ""parameters"": {
            ""arg_1"": args[0],
        },
    }


def length(_func_name: str, args: tuple[pycep_typing.PossibleValue]) -> pycep_typing.Length:
    return {
        ""type"": ""length"",
        ""parameters"": {
            ""arg_1"": args[0],
        },
    }


def max_func(_func_name: str, args: tuple[pycep_typing.PossibleValue, ...]) -> pycep_typing.Max:
    arg_1, *arg_x = args

    return {  # ty: ignore[invalid-return-type] # dynamic operand creation
        ""type"": ""max"",
        ""parameters"": {  # ty: ignore[missing-typed-dict-key]
            ""arg_1"": arg_1,
            **{f""arg_{idx + 2}"": arg for idx, arg in enumerate(arg_x)},
        },
    }


def min_func(_func_name: str, args: tuple[pycep_typing.PossibleValue, ...]) -> pycep_typing.Min:
    arg_1, *arg_x = args

    return {  # ty: ignore[invalid-return-type] # dynamic operand creation
        ""type"": ""min"",
        ""parameters"": {  # ty: ignore[missing-typed-dict-key]
            ""arg_1"": arg_1,
            **{f""arg_{idx + 2}"": arg for idx, arg in enumerate(arg_x)},
        },
    }


def range_func(
    _func_name: str, args: tuple[pycep_typing.PossibleValue, pycep_typing.PossibleValue]
) -> pycep_typing.Range:
    start_idx, count = args

    return {
        ""type"": ""range"",
        ""parameters"": {""start_index"": start_idx, ""count"": count},
    }
";
"

def skip(_func_name: str, args: tuple[pycep_typing.PossibleValue, pycep_typing.PossibleValue]) -> pycep_typing.Skip:
    original_value, number_to_skip = args

    return {
        ""type"": ""skip"",
        ""parameters"": {
            ""original_value"": original_value,
            ""number_to_skip"": number_to_skip,
        },
    }


def take(_func_name: str, args: tuple[pycep_typing.PossibleValue, pycep_typing.PossibleValue]) -> pycep_typing.Take:
    original_value, number_to_take = args

    return {
        ""type"": ""take"",
        ""parameters"": {
            ""original_value"": original_value,
            ""number_to_take"": number_to_take,
        },
    }


def union(_func_name: str, args: tuple[str, ...]) -> pycep_typing.UnionFunc:
    arg_1, arg_2, *arg_x = args

    result: pycep_typing.UnionFunc = {
        ""type"": ""union"",
        ""parameters"": {
            ""arg_1"": arg_1,
            ""arg_2"": arg_2,
            **{f""arg_{idx + 3}"": arg for idx, arg in enumerate(arg_x)},
        },
    }

    return result


####################
#
# functions - date
#
####################


def date_time_add(
    _func_name: str, args: tuple[pycep_typing.PossibleValue, pycep_typing.PossibleValue, pycep_typing.PossibleNoneValue]
) -> pycep_typing.DateTimeAdd:
    base, duration, *format_str = args

    return {
        ""type"": ""date_time_add"",
        ""parameters"": {
            ""base"": base,
            ""duration"": duration,
            ""format"": format_str[0] if format_str else None,
        },
    }


def date_time_from_epoch(_func_name: str, args: tuple[pycep_typing.PossibleValue]) -> pycep_typing.DateTimeFromEpoch:
    return {
        ""type"": ""date_time_from_epoch"",
        ""parameters"": {
            ""epoch_time"": args[0],
        },
    }


def date_time_to_epoch(_func_name: str, args: tuple[pycep_typing.PossibleValue]) -> pycep_typing.DateTimeToEpoch:
    return {
        ""type"": ""date_time_to_epoch"",
        ""parameters"": {
            ""date_time"": args[0],
        },
    }


def utc_now(_func_name: str, args: tuple[pycep_typing.PossibleNoneValue]) -> pycep_typing.UtcNow:
    return {
        ""type"": ""utc_now"",
        ""parameters"": {
            ""format"": args[0] if args else None,
        },
    }


####################
#
# functions - deployment
#
####################


def deployment(_func_name: str, _args: tuple[None]) -> pycep_typing.Deployment:
    return {""type"": ""deployment""}


def environment(_func_name: str, _args: tuple[None]) -> pycep_typing.Environment:
    return {""type"": ""environment""}


####################
#
# functions - file
#
####################


def load_text_content(
    _func_name: str, args: tuple[pycep_typing.PossibleValue, pycep_typing.PossibleNoneValue]
) -> pycep_typing.LoadTextContent:
    file_path, *encoding = args

    return {
        ""type"": ""load_text_content"",
        ""parameters"": {
            ""file_path"": file_path,
            ""encoding"": encoding[0] if encoding else None,
        },
    }


def load_json_content(
    _func_name: str,
    args: tuple[
        pycep_typing.PossibleValue,
        pycep_typing.PossibleNoneValue,
        pycep_typing.PossibleNoneValue,
    ],
) -> pycep_typing.LoadJsonContent:
    file_path, *arg_x = args

    arg_x_len = len(arg_x)
    if arg_x_len == 2:
        json_path, encoding = arg_x
    elif arg_x_len == 1:
        json_path, encoding = arg_x[0], None
    else:
        json_path, encoding = None, None

    return {
        ""type"": ""load_json_content"",
        ""parameters"": {
            ""file_path"": file_path,
            ""json_path"": json_path,
            ""encoding"": encoding,
        },
    }


def load_yaml_content(
    _func_name: str,
    args: tuple[
        pycep_typing.PossibleValue,
        pycep_typing.PossibleNoneValue,
        pycep_typing.PossibleNoneValue,
    ],
) -> pycep_typing.LoadYamlContent:
    file_path, *arg_x = args

    arg_x_len = len(arg_x)
    if arg_x_len == 2:
        path_filter, encoding = arg_x
    elif arg_x_len == 1:
";
"        path_filter, encoding = arg_x[0], None
    else:
        path_filter, encoding = None, None

    return {
        ""type"": ""load_yaml_content"",
        ""parameters"": {
            ""file_path"": file_path,
            ""path_filter"": path_filter,
            ""encoding"": encoding,
        },
    }


def load_file_as_base64(_func_name: str, args: tuple[pycep_typing.PossibleValue]) -> pycep_typing.LoadFileAsBase64:
    return {
        ""type"": ""load_file_as_base64"",
        ""parameters"": {
            ""file_path"": args[0],
        },
    }


####################
#
# functions - lambda
#
####################


def filter_func(
    _func_name: str, args: tuple[pycep_typing.PossibleValue, pycep_typing.PossibleValue]
) -> pycep_typing.Filter:
    input_array, expression = args

    return {
        ""type"": ""filter"",
        ""parameters"": {
            ""input_array"": input_array,
            ""expression"": expression,
        },
    }


####################
#
# functions - logical
#
####################


def bool_func(_func_name: str, args: tuple[pycep_typing.PossibleValue]) -> pycep_typing.BoolFunc:
    return {
        ""type"": ""bool"",
        ""parameters"": {
            ""arg_1"": args[0],
        },
    }


####################
#
# functions - numeric
#
####################


def int_func(_func_name: str, args: tuple[pycep_typing.PossibleValue]) -> pycep_typing.IntFunc:
    return {
        ""type"": ""int"",
        ""parameters"": {
            ""value_to_convert"": args[0],
        },
    }


####################
#
# functions - object
#
####################


def json_func(_func_name: str, args: tuple[pycep_typing.PossibleValue]) -> pycep_typing.Json:
    return {
        ""type"": ""json"",
        ""parameters"": {
            ""arg_1"": args[0],
        },
    }


####################
#
# functions - resource
#
####################


def extension_resource_id(_func_name: str, args: list[Token]) -> pycep_typing.ExtensionResourceId:
    args_len = len(args)
    if args_len == 3:
        resource_id = args[0]
        resource_type = args[1]
        resource_name_1 = args[2]
        resource_name_2 = None
    else:
        resource_id = args[0]
        resource_type = args[1]
        resource_name_1 = args[2]
        resource_name_2 = args[3]

    return {
        ""type"": ""extension_resource_id"",
        ""parameters"": {
            ""resource_id"": resource_id,
            ""resource_type"": resource_type,
            ""resource_name_1"": resource_name_1,
            ""resource_name_2"": resource_name_2,
        },
    }


def list_func(
    _func_name: str,
    args: tuple[
        pycep_typing.PossibleValue,
        pycep_typing.PossibleValue,
    ],
) -> pycep_typing.ListFunc:
    # See https://learn.microsoft.com/en-us/azure/azure-resource-manager/bicep/bicep-functions-resource#list
    # With Bicep v0.4.X, you call list*() using accessor operator, ex: storageAccount.listKeys()
    resource_identifier, api_version = args

    result: pycep_typing.ListFunc = {
        ""type"": ""list_func"",
        ""parameters"": {
            ""func_name"": ""listKeys"",
            ""resource_identifier"": resource_identifier,
            ""api_version"": api_version,
        },
    }

    return result


def management_group_resource_id(_func_name: str, args: list[Token]) -> pycep_typing.ManagementGroupResourceId:
    args_len = len(args)
    if args_len == 2:
        resource_type = args[0]
        resource_name_1 = args[1]
        resource_name_2 = None
    else:
        resource_type = args[0]
        resource_name_1 = args[1]
        resource_name_2 = args[2]

    return {
        ""type"": ""management_group_resource_id"",
        ""parameters"": {
            ""resource_type"": resource_type,
            ""resource_name_1"": resource_name_1,
            ""resource_name_2"": resource_name_2,
        },
    }


def pick_zones(_func_name: str, args: list[pycep_typing.PossibleNoneValue]) -> pycep_typing.PickZones:
    args_len = len(args)

    provider_namespace = cast(""pycep_typing.PossibleValue"", args[0])
";
"    resource_type = cast(""pycep_typing.PossibleValue"", args[1])
    location = cast(""pycep_typing.PossibleValue"", args[2])
    number_of_zones = None
    offset = None

    if args_len >= 4:
        number_of_zones = args[3]
        if args_len == 5:
            offset = args[4]

    return {
        ""type"": ""pick_zones"",
        ""parameters"": {
            ""provider_namespace"": provider_namespace,
            ""resource_type"": resource_type,
            ""location"": location,
            ""number_of_zones"": number_of_zones,
            ""offset"": offset,
        },
    }


def reference(
    _func_name: str,
    args: tuple[
        pycep_typing.PossibleValue,
        pycep_typing.PossibleNoneValue,
        pycep_typing.PossibleNoneValue,
    ],
) -> pycep_typing.Reference:
    resource_identifier, *arg_x = args

    arg_x_len = len(arg_x)
    if arg_x_len == 2:
        api_version, full = arg_x
    elif arg_x_len == 1:
        api_version, full = arg_x[0], None
    else:
        api_version, full = None, None

    result: pycep_typing.Reference = {
        ""type"": ""reference"",
        ""parameters"": {
            ""resource_identifier"": resource_identifier,
            ""api_version"": api_version,
            ""full"": full,
        },
    }

    return result


def resource_id(_func_name: str, args: list[Token]) -> pycep_typing.ResourceId:
    # args has between 2-5 items and only for the 2 and 5 items case
    # it is possible to determine the correct parameter references
    args_len = len(args)
    if args_len == 2:
        subscription_id = None
        resource_group_name = None
        resource_type = args[0]
        resource_name_1 = args[1]
        resource_name_2 = None
    elif args_len == 3:
        # this case is ambiguous and it could be any of
        # 0 -> resource_type, 1 -> resource_name_1, 2 -> resource_name_2
        # 0 -> resource_group_name, 1 -> resource_type, 2 -> resource_name_1
        subscription_id = None
        resource_group_name = None
        resource_type = args[0]
        resource_name_1 = args[1]
        resource_name_2 = args[2]
    elif args_len == 4:
        # this case is ambiguous and it could be any of
        # 0 -> resource_group_name, 1 -> resource_type, 2 -> resource_name_1, 3 -> resource_name_2
        # 0 -> subscription_id, 1 -> resource_group_name, 2 -> resource_type, 3 -> resource_name_1
        subscription_id = None
        resource_group_name = args[0]
        resource_type = args[1]
        resource_name_1 = args[2]
        resource_name_2 = args[3]
    else:
        # in theory there could be many resource_name parameters, but it is currently limited to 7
        subscription_id = args[0]
        resource_group_name = args[1]
        resource_type = args[2]
        # resource_name_1 = args[3]
        # resource_name_2 = args[4]

        return {  # ty: ignore[invalid-return-type] # dynamic operand creation
            ""type"": ""resource_id"",
            ""parameters"": {  # ty: ignore[missing-typed-dict-key]
                ""resource_type"": resource_type,
                **{f""resource_name_{idx}"": resource_name for idx, resource_name in enumerate(args[3:], start=1)},
                ""resource_group_name"": resource_group_name,
                ""subscription_id"": subscription_id,
            },
        }

    return {
        ""type"": ""resource_id"",
        ""parameters"": {
            ""resource_type"": resource_type,
            ""resource_name_1"": resource_name_1,
            ""resource_name_2"": resource_name_2,
            ""resource_group_name"": resource_group_name,
            ""subscription_id"": subscription_id,
        },
    }


def subscription_resource_id(_func_name: str, args: list[Token]) -> pycep_typing.SubscriptionResourceId:
    # args has between 2-4 items and only for the 2 and 4 items case
    # it is possible to determine the correct parameter references
    args_len = len(args)
    if args_len == 2:
        subscription_id = None
        resource_type = args[0]
        resource_name_1 = args[1]
";
"        resource_name_2 = None
    elif args_len == 3:
        # this case is ambiguous and it could be any of
        # 0 -> resource_type, 1 -> resource_name_1, 2 -> resource_name_2
        # 0 -> subscription_id, 1 -> resource_type, 2 -> resource_name_1
        subscription_id = None
        resource_type = args[0]
        resource_name_1 = args[1]
        resource_name_2 = args[2]
    else:
        subscription_id = args[0]
        resource_type = args[1]
        resource_name_1 = args[2]
        resource_name_2 = args[3]

    return {
        ""type"": ""subscription_resource_id"",
        ""parameters"": {
            ""resource_type"": resource_type,
            ""resource_name_1"": resource_name_1,
            ""resource_name_2"": resource_name_2,
            ""subscription_id"": subscription_id,
        },
    }


def tenant_resource_id(_func_name: str, args: list[Token]) -> pycep_typing.TenantResourceId:
    args_len = len(args)
    if args_len == 2:
        resource_type = args[0]
        resource_name_1 = args[1]
        resource_name_2 = None
    else:
        resource_type = args[0]
        resource_name_1 = args[1]
        resource_name_2 = args[2]

    return {
        ""type"": ""tenant_resource_id"",
        ""parameters"": {
            ""resource_type"": resource_type,
            ""resource_name_1"": resource_name_1,
            ""resource_name_2"": resource_name_2,
        },
    }


####################
#
# functions - scope
#
####################


def management_group(_func_name: str, args: tuple[pycep_typing.PossibleNoneValue]) -> pycep_typing.ManagementGroup:
    return {
        ""type"": ""management_group"",
        ""parameters"": {
            ""identifier"": args[0] if args else None,
        },
    }


def resource_group(
    _func_name: str, args: tuple[pycep_typing.PossibleNoneValue, pycep_typing.PossibleNoneValue]
) -> pycep_typing.ResourceGroup:
    args_len = len(args)
    if args_len == 2:
        resource_group_name, subscription_id = args
    elif args_len == 1:
        resource_group_name, subscription_id = args[0], None
    else:
        resource_group_name, subscription_id = None, None

    if resource_group_name and subscription_id:
        # very strange parameter definition
        resource_group_name, subscription_id = subscription_id, resource_group_name

    result: pycep_typing.ResourceGroup = {
        ""type"": ""resource_group"",
        ""parameters"": {
            ""resource_group_name"": resource_group_name,
            ""subscription_id"": subscription_id,
        },
    }

    return result


def subscription(
    _func_name: str, args: tuple[pycep_typing.PossibleNoneValue, Token | None]
) -> pycep_typing.Subscription:
    return {
        ""type"": ""subscription"",
        ""parameters"": {
            ""subscription_id"": args[0] if args else None,
        },
    }


def tenant(_func_name: str, _args: tuple[None]) -> pycep_typing.Tenant:
    return {""type"": ""tenant""}


####################
#
# functions - string
#
####################


def base64_func(_func_name: str, args: tuple[pycep_typing.PossibleValue]) -> pycep_typing.Base64:
    return {
        ""type"": ""base64"",
        ""parameters"": {
            ""input_string"": args[0],
        },
    }


def base64_to_json(_func_name: str, args: tuple[pycep_typing.PossibleValue]) -> pycep_typing.Base64ToJson:
    return {
        ""type"": ""base64_to_json"",
        ""parameters"": {
            ""base64_value"": args[0],
        },
    }


def base64_to_string(_func_name: str, args: tuple[pycep_typing.PossibleValue]) -> pycep_typing.Base64ToString:
    return {
        ""type"": ""base64_to_string"",
        ""parameters"": {
            ""base64_value"": args[0],
        },
    }


def data_uri(_func_name: str, args: tuple[pycep_typing.PossibleValue]) -> pycep_typing.DataUri:
    return {
        ""type"": ""data_uri"",
        ""parameters"": {
            ""string_to_convert"": args[0],
        },
    }


def data_uri_to_string(_func_name: str, args: tuple[pycep_typing.PossibleValue]) -> pycep_typing.DataUriToString:
";
"    return {
        ""type"": ""data_uri_to_string"",
        ""parameters"": {
            ""data_uri_to_convert"": args[0],
        },
    }


def ends_with(
    _func_name: str, args: tuple[pycep_typing.PossibleValue, pycep_typing.PossibleValue]
) -> pycep_typing.EndsWith:
    string_to_search, string_to_find = args

    return {
        ""type"": ""ends_with"",
        ""parameters"": {
            ""string_to_search"": string_to_search,
            ""string_to_find"": string_to_find,
        },
    }


def format_func(_func_name: str, args: tuple[pycep_typing.PossibleValue, ...]) -> pycep_typing.Format:
    format_string, *arg_x = args

    return {  # ty: ignore[invalid-return-type] # dynamic operand creation
        ""type"": ""format"",
        ""parameters"": {  # ty: ignore[missing-typed-dict-key]
            ""format_string"": format_string,
            **{f""arg_{idx + 1}"": extra for idx, extra in enumerate(arg_x)},
        },
    }


def guid(_func_name: str, args: tuple[pycep_typing.PossibleValue, ...]) -> pycep_typing.Guid:
    base_string, *extra_string_x = args

    return {
        ""type"": ""guid"",
        ""parameters"": {
            ""base_string"": base_string,
            **{f""extra_string_{idx + 1}"": extra for idx, extra in enumerate(extra_string_x)},
        },
    }


def index_of(
    _func_name: str, args: tuple[pycep_typing.PossibleValue, pycep_typing.PossibleValue]
) -> pycep_typing.IndexOf:
    string_to_search, string_to_find = args

    return {
        ""type"": ""index_of"",
        ""parameters"": {
            ""string_to_search"": string_to_search,
            ""string_to_find"": string_to_find,
        },
    }


def last_index_of(
    _func_name: str, args: tuple[pycep_typing.PossibleValue, pycep_typing.PossibleValue]
) -> pycep_typing.LastIndexOf:
    string_to_search, string_to_find = args

    return {
        ""type"": ""last_index_of"",
        ""parameters"": {
            ""string_to_search"": string_to_search,
            ""string_to_find"": string_to_find,
        },
    }


def new_guid(_func_name: str, _args: tuple[object]) -> pycep_typing.NewGuid:
    return {""type"": ""new_guid""}


def pad_left(
    _func_name: str, args: tuple[pycep_typing.PossibleValue, pycep_typing.PossibleValue, pycep_typing.PossibleNoneValue]
) -> pycep_typing.PadLeft:
    value_to_pad, total_length, *padding_character = args

    return {
        ""type"": ""pad_left"",
        ""parameters"": {
            ""value_to_pad"": value_to_pad,
            ""total_length"": total_length,
            ""padding_character"": padding_character[0] if padding_character else None,
        },
    }


def replace(
    _func_name: str, args: tuple[pycep_typing.PossibleValue, pycep_typing.PossibleValue, pycep_typing.PossibleValue]
) -> pycep_typing.Replace:
    original_string, old_string, new_string = args

    return {
        ""type"": ""replace"",
        ""parameters"": {
            ""original_string"": original_string,
            ""old_string"": old_string,
            ""new_string"": new_string,
        },
    }


def split(_func_name: str, args: tuple[pycep_typing.PossibleValue, pycep_typing.PossibleValue]) -> pycep_typing.Split:
    input_string, delimiter = args

    result: pycep_typing.Split = {
        ""type"": ""split"",
        ""parameters"": {
            ""input_string"": input_string,
            ""delimiter"": delimiter,
        },
    }

    return result


def join(_func_name: str, args: tuple[pycep_typing.PossibleValue, pycep_typing.PossibleValue]) -> pycep_typing.Join:
    input_array, delimiter = args

    result: pycep_typing.Join = {""type"": ""join"", ""parameters"": {""input_array"": input_array, ""delimiter"": delimiter}}

    return result


def starts_with(
    _func_name: str, args: tuple[pycep_typing.PossibleValue, pycep_typing.PossibleValue]
) -> pycep_typing.StartsWith:
    string_to_search, string_to_find = args

    return {
        ""type"": ""starts_with"",
        ""parameters"": {
            ""string_to_search"": string_to_search,
            ""string_to_find"": string_to_find,
        },
";
"    }


def string_func(_func_name: str, args: tuple[pycep_typing.PossibleValue]) -> pycep_typing.String:
    return {
        ""type"": ""string"",
        ""parameters"": {
            ""value_to_convert"": args[0],
        },
    }


def substring(
    _func_name: str, args: tuple[pycep_typing.PossibleValue, pycep_typing.PossibleValue, pycep_typing.PossibleNoneValue]
) -> pycep_typing.Substring:
    string_to_parse, start_index, *str_length = args

    return {
        ""type"": ""substring"",
        ""parameters"": {
            ""string_to_parse"": string_to_parse,
            ""start_index"": start_index,
            ""length"": str_length[0] if str_length else None,
        },
    }


def to_lower(_func_name: str, args: tuple[pycep_typing.PossibleValue]) -> pycep_typing.ToLower:
    return {
        ""type"": ""to_lower"",
        ""parameters"": {
            ""string_to_change"": args[0],
        },
    }


def to_upper(_func_name: str, args: tuple[pycep_typing.PossibleValue]) -> pycep_typing.ToUpper:
    return {
        ""type"": ""to_upper"",
        ""parameters"": {
            ""string_to_change"": args[0],
        },
    }


def trim(_func_name: str, args: tuple[pycep_typing.PossibleValue]) -> pycep_typing.Trim:
    return {
        ""type"": ""trim"",
        ""parameters"": {
            ""string_to_trim"": args[0],
        },
    }


def unique_string(_func_name: str, args: tuple[pycep_typing.PossibleValue, ...]) -> pycep_typing.UniqueString:
    base_string, *extra_string_x = args

    return {
        ""type"": ""unique_string"",
        ""parameters"": {
            ""base_string"": base_string,
            **{f""extra_string_{idx + 1}"": extra for idx, extra in enumerate(extra_string_x)},
        },
    }


def uri(_func_name: str, args: tuple[pycep_typing.PossibleValue, pycep_typing.PossibleValue]) -> pycep_typing.Uri:
    base_uri, relative_uri = args

    return {
        ""type"": ""uri"",
        ""parameters"": {
            ""base_uri"": base_uri,
            ""relative_uri"": relative_uri,
        },
    }


def uri_component(_func_name: str, args: tuple[pycep_typing.PossibleValue]) -> pycep_typing.UriComponent:
    return {
        ""type"": ""uri_component"",
        ""parameters"": {
            ""string_to_encode"": args[0],
        },
    }


def uri_component_to_string(
    _func_name: str, args: tuple[pycep_typing.PossibleValue]
) -> pycep_typing.UriComponentToString:
    return {
        ""type"": ""uri_component_to_string"",
        ""parameters"": {
            ""uri_encoded_string"": args[0],
        },
    }


####################
#
# placeholder for unknown built-in and self-defined functions
#
####################


def unknown_func(func_name: str, args: tuple[pycep_typing.PossibleValue, ...]) -> pycep_typing.UnknownFunction:
    return {  # ty: ignore[invalid-return-type] # dynamic operand creation
        ""type"": func_name,
        ""parameters"": {f""arg_{idx + 1}"": arg for idx, arg in enumerate(args)},  # ty: ignore[invalid-argument-type]
    }


####################
#
#
#
####################

FUNCTIONS: dict[str, Callable[[str, Any], pycep_typing.Functions]] = {
    # any
    ""any"": any_func,
    ""sys.any"": any_func,
    # array
    ""array"": array_func,
    ""sys.array"": array_func,
    ""concat"": concat,
    ""sys.concat"": concat,
    ""contains"": contains,
    ""sys.contains"": contains,
    ""empty"": empty,
    ""sys.empty"": empty,
    ""first"": first,
    ""sys.first"": first,
    ""flatten"": flatten,
    ""sys.flatten"": flatten,
    ""intersection"": intersection,
    ""sys.intersection"": intersection,
    ""last"": last,
    ""sys.last"": last,
    ""length"": length,
    ""sys.length"": length,
    ""max"": max_func,
    ""sys.max"": max_func,
    ""min"": min_func,
    ""sys.min"": min_func,
    ""range"": range_func,
    ""sys.range"": range_func,
    ""skip"": skip,
    ""sys.skip"": skip,
    ""take"": take,
    ""sys.take"": take,
    ""union"": union,
    ""sys.union"": union,
    # date
    ""dateTimeAdd"": date_time_add,
    ""sys.dateTimeAdd"": date_time_add,
    ""dateTimeFromEpoch"": date_time_from_epoch,
";
"    ""sys.dateTimeFromEpoch"": date_time_from_epoch,
    ""dateTimeToEpoch"": date_time_to_epoch,
    ""sys.dateTimeToEpoch"": date_time_to_epoch,
    ""utcNow"": utc_now,
    ""sys.utcNow"": utc_now,
    # deployment
    ""deployment"": deployment,
    ""az.deployment"": deployment,
    ""environment"": environment,
    ""az.environment"": environment,
    # file
    ""loadFileAsBase64"": load_file_as_base64,
    ""sys.loadFileAsBase64"": load_file_as_base64,
    ""loadJsonContent"": load_json_content,
    ""sys.loadJsonContent"": load_json_content,
    ""loadTextContent"": load_text_content,
    ""sys.loadTextContent"": load_text_content,
    ""loadYamlContent"": load_yaml_content,
    ""sys.loadYamlContent"": load_yaml_content,
    # lambda
    ""filter"": filter_func,
    ""sys.filter"": filter_func,
    # logical
    ""bool"": bool_func,
    ""sys.bool"": bool_func,
    # numeric
    ""int"": int_func,
    ""sys.int"": int_func,
    # object
    ""json"": json_func,
    ""sys.json"": json_func,
    # resource
    ""extensionResourceId"": extension_resource_id,
    ""az.extensionResourceId"": extension_resource_id,
    ""listKeys"": list_func,
    ""az.listKeys"": list_func,
    ""managementGroupResourceId"": management_group_resource_id,
    ""az.managementGroupResourceId"": management_group_resource_id,
    ""pickZones"": pick_zones,
    ""az.pickZones"": pick_zones,
    ""reference"": reference,
    ""az.reference"": reference,
    ""resourceId"": resource_id,
    ""az.resourceId"": resource_id,
    ""subscriptionResourceId"": subscription_resource_id,
    ""az.subscriptionResourceId"": subscription_resource_id,
    ""tenantResourceId"": tenant_resource_id,
    ""az.tenantResourceId"": tenant_resource_id,
    # scope
    ""managementGroup"": management_group,
    ""az.managementGroup"": management_group,
    ""resourceGroup"": resource_group,
    ""az.resourceGroup"": resource_group,
    ""subscription"": subscription,
    ""az.subscription"": subscription,
    ""tenant"": tenant,
    ""az.tenant"": tenant,
    # string
    ""base64"": base64_func,
    ""sys.base64"": base64_func,
    ""base64ToJson"": base64_to_json,
    ""sys.base64ToJson"": base64_to_json,
    ""base64ToString"": base64_to_string,
    ""sys.base64ToString"": base64_to_string,
    ""dataUri"": data_uri,
    ""sys.dataUri"": data_uri,
    ""dataUriToString"": data_uri_to_string,
    ""sys.dataUriToString"": data_uri_to_string,
    ""endsWith"": ends_with,
    ""sys.endsWith"": ends_with,
    ""format"": format_func,
    ""sys.format"": format_func,
    ""guid"": guid,
    ""sys.guid"": guid,
    ""indexOf"": index_of,
    ""sys.indexOf"": index_of,
    ""join"": join,
    ""sys.join"": join,
    ""lastIndexOf"": last_index_of,
    ""sys.lastIndexOf"": last_index_of,
    ""newGuid"": new_guid,
    ""sys.newGuid"": new_guid,
    ""padLeft"": pad_left,
    ""sys.padLeft"": pad_left,
    ""replace"": replace,
    ""sys.replace"": replace,
    ""split"": split,
    ""sys.split"": split,
    ""startsWith"": starts_with,
    ""sys.startsWith"": starts_with,
    ""string"": string_func,
    ""sys.string"": string_func,
    ""substring"": substring,
    ""sys.substring"": substring,
    ""toLower"": to_lower,
    ""sys.toLower"": to_lower,
    ""toUpper"": to_upper,
    ""sys.toUpper"": to_upper,
    ""trim"": trim,
    ""sys.trim"": trim,
    ""uniqueString"": unique_string,
    ""sys.uniqueString"": unique_string,
    ""uri"": uri,
    ""sys.uri"": uri,
    ""uriComponent"": uri_component,
    ""sys.uriComponent"": uri_component,
    ""uriComponentToString"": uri_component_to_string,
    ""sys.uriComponentToString"": uri_component_to_string,
}

UNKNOWN_FUNCTION = unknown_func
"].

(** pycep/transformer.py:1-978 *)
Definition transformer_py : list string := [
"from __future__ import annotations

import itertools
import re
from typing import TYPE_CHECKING, Any, Literal, cast

from lark import Token, Transformer, v_args

from pycep import typing as pycep_typing
from pycep.models import BicepElement
from pycep.rules.decorators import DECORATORS, UNKNOWN_DECORATOR
from pycep.rules.functions import FUNCTIONS, UNKNOWN_FUNCTION
from pycep.utils import sanitize_multi_line_string_token, transform_string_token

if TYPE_CHECKING:
    from lark.tree import Meta


BICEP_REGISTRY_ALIAS_PATTERN = re.compile(r""br/(?P<alias>[\w]+):(?P<path>[\w/\-.]+):(?P<tag>[\w.\-]+)"")
PUBLIC_BICEP_REGISTRY_PATTERN = re.compile(r""br:mcr\.microsoft\.com/(?P<path>[\w/\-]+):(?P<tag>[\w.\-]+)"")
PRIVATE_BICEP_REGISTRY_PATTERN = re.compile(
    r""br:(?P<registry_name>\w+)\.azurecr\.io/(?P<path>[\w/\-.]+):(?P<tag>[\w.\-]+)""
)
TEMPLATE_SPEC_ALIAS_PATTERN = re.compile(r""ts/(?P<alias>[\w]+):(?P<path>[\w/\-]+):(?P<tag>[\w.\-]+)"")
TEMPLATE_SPEC_PATTERN = re.compile(
    r""ts:(?P<sub_id>[\d\-]+)/(?P<rg_id>[\w._\-()]+)/(?P<name>[\w.\-]+):(?P<version>[\w.\-]+)""
)

VALID_TARGET_SCOPES = {""resourceGroup"", ""subscription"", ""managementGroup"", ""tenant""}


class BicepToJson(Transformer[Token, pycep_typing.BicepJson]):
    def __init__(self, add_line_numbers: bool) -> None:
        self.add_line_numbers = add_line_numbers

        self.imports: list[pycep_typing.ImportResponse] = []
        self.child_resources: list[pycep_typing.ResourceResponse] = []

        super().__init__()

    ####################
    #
    # start
    #
    ####################

    def start(self, args: list[pycep_typing.ElementResponse]) -> pycep_typing.BicepJson:
        result: pycep_typing.BicepJson = {
            ""globals"": {
                ""scope"": {
                    ""value"": ""resourceGroup"",
                },
            }
        }

        # defaults are not included in the file
        if self.add_line_numbers:
            result[""globals""][""scope""][""__start_line__""] = 0
            result[""globals""][""scope""][""__end_line__""] = 0

        for arg in itertools.chain(args, self.imports, self.child_resources):
            if not arg:
                # very unlikely this will happen in a real Bicep file, but in test files possible
                continue
            for key, value in arg.items():
                result.setdefault(key, {})[value[""__name__""]] = value[""__attrs__""]  # ty: ignore[not-subscriptable, no-matching-overload]

        return result

    ####################
    #
    # elements
    #
    ####################

    @v_args(meta=True)
    def scope(self, meta: Meta, args: tuple[Token]) -> pycep_typing.ScopeResponse:
        value = cast('Literal[""resourceGroup"", ""subscription"", ""managementGroup"", ""tenant""]', str(args[0])[1:-1])

        if value not in VALID_TARGET_SCOPES:  # pragma: no cover
            raise ValueError(f""target scope is invalid: {value}"")

        result: pycep_typing.ScopeResponse = {
            ""globals"": {
                ""__name__"": ""scope"",
                ""__attrs__"": {
                    ""value"": value,
                },
            }
        }

        if self.add_line_numbers:
            result[""globals""][""__attrs__""][""__start_line__""] = meta.line
            result[""globals""][""__attrs__""][""__end_line__""] = meta.end_line

        return result

    @v_args(meta=True)
    def custom_import(
        self, meta: Meta, args: tuple[pycep_typing.ImportNameAlias, pycep_typing.ImportNameAlias, Token]
    ) -> None:
        # the import statement parsing is slightly overload to support namespace imports,
        # which don't have a file reference
        if len(args) == 1:
            result: pycep_typing._Import = {
                ""__name__"": transform_string_token(args[0]),
                ""__attrs__"": {},
            }
            self.imports.append(
                {
                    ""imports"": result,
                }
            )
            return

        # to make typing easy, there are two import types defined, but it could be more
";
"        *name_alias_pairs, file_path = args

        for name_alias in name_alias_pairs:
            result: pycep_typing._Import = {
                ""__name__"": str(name_alias[""name""]),
                ""__attrs__"": {
                    ""file_path"": transform_string_token(file_path),
                },
            }

            if alias := name_alias.get(""alias""):
                result[""__attrs__""][""alias""] = str(alias)

            if self.add_line_numbers:
                result[""__attrs__""][""__start_line__""] = meta.line
                result[""__attrs__""][""__end_line__""] = meta.end_line

            self.imports.append(
                {
                    ""imports"": result,
                }
            )

    @v_args(meta=True)
    def extension(
        self, meta: Meta, args: tuple[str, dict[str, Any] | None, str | None]
    ) -> pycep_typing.ExtensionResponse:
        name, config, alias = args

        result: pycep_typing.ExtensionResponse = {
            ""extensions"": {
                ""__name__"": str(name),
                ""__attrs__"": {},
            }
        }

        if config:
            result[""extensions""][""__attrs__""][""config""] = config

        if alias:
            result[""extensions""][""__attrs__""][""alias""] = str(alias)

        if self.add_line_numbers:
            result[""extensions""][""__attrs__""][""__start_line__""] = meta.line
            result[""extensions""][""__attrs__""][""__end_line__""] = meta.end_line

        return result

    @v_args(meta=True)
    def metadata(self, meta: Meta, args: tuple[str, str]) -> pycep_typing.MetadataResponse:
        name, value = args

        result: pycep_typing.MetadataResponse = {
            ""metadata"": {
                ""__name__"": str(name),
                ""__attrs__"": {
                    ""value"": value,
                },
            }
        }

        if self.add_line_numbers:
            result[""metadata""][""__attrs__""][""__start_line__""] = meta.line
            result[""metadata""][""__attrs__""][""__end_line__""] = meta.end_line

        return result

    @v_args(meta=True)
    def param(
        self, meta: Meta, args: tuple[list[pycep_typing.Decorator] | None, str, str, pycep_typing.PossibleNoneValue]
    ) -> pycep_typing.ParamResponse:
        decorators, name, data_type, default = args

        result: pycep_typing.ParamResponse = {
            ""parameters"": {
                ""__name__"": str(name),
                ""__attrs__"": {
                    ""decorators"": decorators or [],
                    ""type"": data_type,
                    ""default"": default,
                },
            }
        }

        if self.add_line_numbers:
            result[""parameters""][""__attrs__""][""__start_line__""] = meta.line
            result[""parameters""][""__attrs__""][""__end_line__""] = meta.end_line

        return result

    @v_args(meta=True)
    def var(
        self,
        meta: Meta,
        args: tuple[list[pycep_typing.Decorator] | None, Token, str | None, pycep_typing.PossibleValue],
    ) -> pycep_typing.VarResponse:
        decorators, name, data_type, value = args

        result: pycep_typing.VarResponse = {
            ""variables"": {
                ""__name__"": str(name),
                ""__attrs__"": {
                    ""decorators"": decorators or [],
                    ""value"": value,
                },
            }
        }

        if data_type:
            result[""variables""][""__attrs__""][""type""] = data_type

        if self.add_line_numbers:
            result[""variables""][""__attrs__""][""__start_line__""] = meta.line
            result[""variables""][""__attrs__""][""__end_line__""] = meta.end_line

        return result

    @v_args(meta=True)
    def output(
        self, meta: Meta, args: tuple[list[pycep_typing.Decorator] | None, str, str, pycep_typing.PossibleValue]
    ) -> pycep_typing.OutputResponse:
        decorators, name, data_type, value = args

        result: pycep_typing.OutputResponse = {
            ""outputs"": {
                ""__name__"": str(name),
";
"                ""__attrs__"": {
                    ""decorators"": decorators or [],
                    ""type"": data_type,
                    ""value"": value,
                },
            }
        }

        if self.add_line_numbers:
            result[""outputs""][""__attrs__""][""__start_line__""] = meta.line
            result[""outputs""][""__attrs__""][""__end_line__""] = meta.end_line

        return result

    @v_args(meta=True)
    def resource(
        self,
        meta: Meta,
        args: tuple[
            list[pycep_typing.Decorator] | None, Token, pycep_typing.ApiTypeVersion, Token | None, dict[str, Any]
        ],
    ) -> pycep_typing.ResourceResponse:
        decorators, name, type_api_pair, existing, config = args
        name_str = str(name)

        self.process_child_resource(parent_resource_name=name_str, parent_type_api_pair=type_api_pair, config=config)

        result: pycep_typing.ResourceResponse = {
            ""resources"": {
                ""__name__"": name_str,
                ""__attrs__"": {
                    ""decorators"": decorators or [],
                    ""type"": type_api_pair[""type""],
                    ""api_version"": type_api_pair[""api_version""],
                    ""existing"": bool(existing),
                    ""config"": config,
                },
            }
        }

        if self.add_line_numbers:
            result[""resources""][""__attrs__""][""__start_line__""] = meta.line
            result[""resources""][""__attrs__""][""__end_line__""] = meta.end_line

        return result

    @v_args(meta=True)
    def child_resource(
        self, meta: Meta, args: tuple[Token, Token, Token | None, dict[str, Any]]
    ) -> tuple[Literal[""__child_resource__""], pycep_typing.Resource]:
        name, type_name, existing, config = args

        result: pycep_typing.Resource = {
            ""__name__"": str(name),
            ""__attrs__"": {
                ""decorators"": [],
                ""type"": str(type_name)[1:-1],
                ""api_version"": """",  # will be set later with the parent resource api version
                ""existing"": bool(existing),
                ""config"": config,
            },
        }

        if self.add_line_numbers:
            result[""__attrs__""][""__start_line__""] = meta.line
            # remove one line, because the new line is counted for child resources
            result[""__attrs__""][""__end_line__""] = meta.end_line - 1

        return ""__child_resource__"", result

    @v_args(meta=True)
    def module(
        self, meta: Meta, args: tuple[list[pycep_typing.Decorator] | None, str, pycep_typing.ModulePath, dict[str, Any]]
    ) -> pycep_typing.ModuleResponse:
        decorators, name, path, config = args

        result: pycep_typing.ModuleResponse = {
            ""modules"": {
                ""__name__"": str(name),
                ""__attrs__"": {
                    ""decorators"": decorators or [],
                    ""type"": path[""type""],
                    ""detail"": path[""detail""],
                    ""config"": config,
                },
            }
        }

        if self.add_line_numbers:
            result[""modules""][""__attrs__""][""__start_line__""] = meta.line
            result[""modules""][""__attrs__""][""__end_line__""] = meta.end_line

        return result

    @v_args(meta=True)
    def custom_type(
        self, meta: Meta, args: tuple[list[pycep_typing.Decorator] | None, Token, pycep_typing.PossibleValue]
    ) -> pycep_typing.TypeResponse:
        decorators, name, value = args

        result: pycep_typing.TypeResponse = {
            ""types"": {
                ""__name__"": str(name),
                ""__attrs__"": {
                    ""decorators"": decorators or [],
                    ""value"": value,
                },
            }
        }

        if self.add_line_numbers:
            result[""types""][""__attrs__""][""__start_line__""] = meta.line
            result[""types""][""__attrs__""][""__end_line__""] = meta.end_line

        return result

    @v_args(meta=True)
";
"    def custom_func(
        self,
        meta: Meta,
        args: tuple[
            list[pycep_typing.Decorator] | None,
            Token,
            pycep_typing.PossibleValue,
            pycep_typing.PossibleValue,
        ],
    ) -> pycep_typing.FunctionResponse:
        decorators, name, *arg_type_pairs, return_type, expression = args

        result: pycep_typing.FunctionResponse = {
            ""functions"": {
                ""__name__"": str(name),
                ""__attrs__"": {
                    ""decorators"": decorators or [],
                    # TODO: change `zip` to `itertools.batched` when updating to Python 3.12
                    ""args"": {
                        str(arg_name): arg_type for arg_name, arg_type in zip(*[iter(arg_type_pairs)] * 2, strict=True)
                    },
                    ""type"": return_type,
                    ""expression"": expression,
                },
            }
        }

        if self.add_line_numbers:
            result[""functions""][""__attrs__""][""__start_line__""] = meta.line
            result[""functions""][""__attrs__""][""__end_line__""] = meta.end_line

        return result

    ####################
    #
    # element type extras
    #
    ####################

    def array_suffix(self, _: list[Any]) -> None:
        return None  # presence counts; value is unused

    def base_type(self, args: list[Any]) -> pycep_typing.DataType:
        result = args[0]
        return str(result) if isinstance(result, Token) else result

    def union_type(self, args: list[pycep_typing.DataType]) -> pycep_typing.UnionType:
        return {""type"": ""union"", ""members"": list(args)}

    def data_type(self, args: list[Any]) -> pycep_typing.DataType:
        base, *suffixes = args
        result: pycep_typing.DataType = base
        for _ in suffixes:
            result = {""type"": ""array"", ""item_type"": result}
        return result

    def type_api_pair(self, args: tuple[Token, Token]) -> pycep_typing.ApiTypeVersion:
        type_name, api_version = str(args[0])[1:-1].split(""@"")
        return {
            ""type"": str(type_name),
            ""api_version"": str(api_version),
        }

    def module_path(self, args: tuple[Token]) -> pycep_typing.ModulePath:
        file_path = str(args[0])[1:-1]

        if file_path.startswith(""br:""):
            # check if it's referencing the official public registry
            m = re.match(PUBLIC_BICEP_REGISTRY_PATTERN, file_path)
            if m:
                is_public = True
                registry_name = ""mcr.microsoft.com""
            else:
                # check if it's referencing a privvte registry
                m = re.match(PRIVATE_BICEP_REGISTRY_PATTERN, file_path)
                if m:
                    is_public = False
                    registry_name = m.group(""registry_name"")
                else:  # pragma: no cover
                    raise ValueError(f""Bicep registry path is invalid: {file_path}"")

            br_result: pycep_typing.BicepRegistryModulePath = {
                ""type"": ""bicep_registry"",
                ""detail"": {
                    ""full"": file_path[3:],
                    ""registry_name"": registry_name,
                    ""path"": m.group(""path""),
                    ""tag"": m.group(""tag""),
                    ""public"": is_public,
                },
            }
            return br_result
        elif file_path.startswith(""br/""):
            m = re.match(BICEP_REGISTRY_ALIAS_PATTERN, file_path)
            if not m:  # pragma: no cover
                raise ValueError(f""Bicep registry alias is invalid: {file_path}"")

            alias = m.group(""alias"")
            is_public = False

            # check if it's the alias of the official public registry
            if alias == ""public"":
                is_public = True

            br_alias_result: pycep_typing.BicepRegistryAliasModulePath = {
                ""type"": ""bicep_registry_alias"",
                ""detail"": {
                    ""full"": file_path[3:],
";
"                    ""alias"": alias,
                    ""path"": m.group(""path""),
                    ""tag"": m.group(""tag""),
                    ""public"": is_public,
                },
            }
            return br_alias_result
        elif file_path.startswith(""ts:""):
            m = re.match(TEMPLATE_SPEC_PATTERN, file_path)
            if not m:  # pragma: no cover
                raise ValueError(f""Template spec path is invalid: {file_path}"")

            ts_result: pycep_typing.TemplateSpecModulePath = {
                ""type"": ""template_spec"",
                ""detail"": {
                    ""full"": file_path[3:],
                    ""subscription_id"": m.group(""sub_id""),
                    ""resource_group_id"": m.group(""rg_id""),
                    ""name"": m.group(""name""),
                    ""version"": m.group(""version""),
                },
            }
            return ts_result
        elif file_path.startswith(""ts/""):
            m = re.match(TEMPLATE_SPEC_ALIAS_PATTERN, file_path)
            if not m:  # pragma: no cover
                raise ValueError(f""Template spec alias is invalid: {file_path}"")

            ts_alias_result: pycep_typing.TemplateSpecAliasModulePath = {
                ""type"": ""template_spec_alias"",
                ""detail"": {
                    ""full"": file_path[3:],
                    ""alias"": m.group(""alias""),
                    ""path"": m.group(""path""),
                    ""tag"": m.group(""tag""),
                },
            }
            return ts_alias_result

        local_result: pycep_typing.LocalModulePath = {
            ""type"": ""local"",
            ""detail"": {
                ""full"": file_path,
                ""path"": file_path,
            },
        }
        return local_result

    def import_alias(self, args: tuple[Token, ...]) -> pycep_typing.ImportNameAlias:
        name, alias = args

        result: pycep_typing.ImportNameAlias = {""name"": str(name)}

        if alias:
            result[""alias""] = str(alias)

        return result

    def type_value(self, args: tuple[pycep_typing.PossibleNoneValue, ...]) -> str:
        # this is only triggered, when a union type was found, ex. ""'bicep' | 'arm' | 'azure'""
        return "" | "".join(str(arg) for arg in args)

    ####################
    #
    # loops
    #
    ####################

    def loop(self, args: tuple[pycep_typing.LoopType, str | None, dict[str, Any]]) -> pycep_typing.Loop:
        loop_type, condition, config = args

        if isinstance(condition, dict) and (func := condition.get(""function"", {})).get(""type"") == ""if"":
            condition = func[""parameters""][""arg_1""]

        return {
            ""loop_type"": loop_type,
            ""condition"": condition,
            ""config"": config,
        }

    def loop_array(self, args: tuple[Token, pycep_typing.PossibleValue]) -> pycep_typing.LoopArray:
        item_name, array_name = args
        return {
            ""type"": ""array"",
            ""detail"": {
                ""item_name"": str(item_name),
                ""array_name"": array_name,
            },
        }

    def loop_array_index(self, args: tuple[Token, Token, Token]) -> pycep_typing.LoopArrayIndex:
        item_name, idx_name, array_name = args
        return {
            ""type"": ""array_index"",
            ""detail"": {
                ""item_name"": str(item_name),
                ""index_name"": str(idx_name),
                ""array_name"": array_name,
            },
        }

    def loop_object(self, args: tuple[Token, Token]) -> pycep_typing.LoopObject:
        item_name, obj_name = args
        return {
            ""type"": ""object"",
            ""detail"": {
                ""item_name"": str(item_name),
                ""object_name"": str(obj_name),
            },
        }

    ####################
    #
    # deploy condition
    #
    ####################

    def deploy_condition(self, args: tuple[pycep_typing.PossibleValue, dict[str, Any]]) -> pycep_typing.DeployCondition:
        condition, config = args
";
"        return {
            ""condition"": condition,
            ""config"": config,
        }

    ####################
    #
    # decorators
    #
    ####################

    def decorator(self, args: list[pycep_typing.Decorator]) -> pycep_typing.Decorator:
        deco_name, *params = args
        deco_name = str(deco_name)

        deco_def = DECORATORS.get(deco_name, UNKNOWN_DECORATOR)
        return deco_def(deco_name, params)

    def decorators(self, args: list[pycep_typing.Decorator]) -> list[pycep_typing.Decorator]:
        return args

    ####################
    #
    # functions
    #
    ####################

    def function(self, args: tuple[pycep_typing.PossibleValue, ...]) -> pycep_typing.Function:
        func_name, *params = args
        func_name = str(func_name).removesuffix(""("")

        func_def = FUNCTIONS.get(func_name, UNKNOWN_FUNCTION)
        func_data = func_def(func_name, params)

        return {""function"": func_data}

    ####################
    #
    # operators - comparison
    #
    ####################

    def operator(self, args: tuple[pycep_typing.Operators]) -> pycep_typing.Operator:
        return {""operator"": args[0]}

    def greater_than_or_equals(self, args: tuple[int | str, int | str]) -> pycep_typing.GreaterThanOrEquals:
        operand_1, operand_2 = args

        return {
            ""type"": ""greater_than_or_equals"",
            ""operands"": {
                ""operand_1"": operand_1,
                ""operand_2"": operand_2,
            },
        }

    def greater_than(self, args: tuple[int | str, int | str]) -> pycep_typing.GreaterThan:
        operand_1, operand_2 = args

        return {
            ""type"": ""greater_than"",
            ""operands"": {
                ""operand_1"": operand_1,
                ""operand_2"": operand_2,
            },
        }

    def less_than_or_equals(self, args: tuple[int | str, int | str]) -> pycep_typing.LessThanOrEquals:
        operand_1, operand_2 = args

        return {
            ""type"": ""less_than_or_equals"",
            ""operands"": {
                ""operand_1"": operand_1,
                ""operand_2"": operand_2,
            },
        }

    def less_than(self, args: tuple[int | str, int | str]) -> pycep_typing.LessThan:
        operand_1, operand_2 = args

        return {
            ""type"": ""less_than"",
            ""operands"": {
                ""operand_1"": operand_1,
                ""operand_2"": operand_2,
            },
        }

    def equals(self, args: tuple[pycep_typing.PossibleValue, pycep_typing.PossibleValue]) -> pycep_typing.Equals:
        operand_1, operand_2 = args

        return {
            ""type"": ""equals"",
            ""operands"": {
                ""operand_1"": operand_1,
                ""operand_2"": operand_2,
            },
        }

    def not_equals(self, args: tuple[pycep_typing.PossibleValue, pycep_typing.PossibleValue]) -> pycep_typing.NotEquals:
        operand_1, operand_2 = args

        return {
            ""type"": ""not_equals"",
            ""operands"": {
                ""operand_1"": operand_1,
                ""operand_2"": operand_2,
            },
        }

    def equals_case_insens(self, args: tuple[str, str]) -> pycep_typing.EqualsCaseInsensitive:
        operand_1, operand_2 = args

        return {
            ""type"": ""equals_case_insensitive"",
            ""operands"": {
                ""operand_1"": operand_1,
                ""operand_2"": operand_2,
            },
        }

    def not_equals_case_insens(self, args: tuple[str, str]) -> pycep_typing.NotEqualsCaseInsensitive:
        operand_1, operand_2 = args

        return {
            ""type"": ""not_equals_case_insensitive"",
            ""operands"": {
                ""operand_1"": operand_1,
                ""operand_2"": operand_2,
            },
        }

    ####################
    #
    # Operators - logical
    #
    ####################

    def and_op(self, args: tuple[bool | str, ...]) -> pycep_typing.And:
        operand_1, operand_2, *operand_x = args
";
"
        return {
            ""type"": ""and"",
            ""operands"": {
                ""operand_1"": operand_1,
                ""operand_2"": operand_2,
                **{f""operand_{idx + 3}"": op for idx, op in enumerate(operand_x)},
            },
        }

    def or_op(self, args: tuple[bool | str, ...]) -> pycep_typing.Or:
        operand_1, operand_2, *operand_x = args

        return {
            ""type"": ""or"",
            ""operands"": {
                ""operand_1"": operand_1,
                ""operand_2"": operand_2,
                **{f""operand_{idx + 3}"": op for idx, op in enumerate(operand_x)},
            },
        }

    def not_op(self, args: tuple[bool | str]) -> pycep_typing.Not:
        return {
            ""type"": ""not"",
            ""operands"": {
                ""bool_value"": args[0],
            },
        }

    def coalesce(self, args: tuple[pycep_typing.PossibleValue, ...]) -> pycep_typing.Coalesce:
        operand_1, operand_2, *operand_x = args

        return {
            ""type"": ""coalesce"",
            ""operands"": {
                ""operand_1"": operand_1,
                ""operand_2"": operand_2,
                **{f""operand_{idx + 3}"": op for idx, op in enumerate(operand_x)},
            },
        }

    def conditional(
        self, args: tuple[Token | pycep_typing.PossibleValue, pycep_typing.PossibleValue, pycep_typing.PossibleValue]
    ) -> pycep_typing.Conditional:
        condition, true_value, false_value = args

        return {
            ""type"": ""conditional"",
            ""operands"": {
                ""condition"": condition,
                ""true_value"": true_value,
                ""false_value"": false_value,
            },
        }

    ####################
    #
    # operators - numeric
    #
    ####################

    def add(self, args: tuple[pycep_typing.PossibleValue, pycep_typing.PossibleValue]) -> pycep_typing.Add:
        operand_1, operand_2 = args

        return {
            ""type"": ""add"",
            ""operands"": {
                ""operand_1"": operand_1,
                ""operand_2"": operand_2,
            },
        }

    def divide(self, args: tuple[pycep_typing.PossibleValue, pycep_typing.PossibleValue]) -> pycep_typing.Divide:
        operand_1, operand_2 = args

        return {
            ""type"": ""divide"",
            ""operands"": {
                ""operand_1"": operand_1,
                ""operand_2"": operand_2,
            },
        }

    def minus(self, args: tuple[pycep_typing.PossibleValue]) -> pycep_typing.Minus:
        return {
            ""type"": ""minus"",
            ""operands"": {
                ""integer_value"": args[0],
            },
        }

    def modulo(self, args: tuple[pycep_typing.PossibleValue, pycep_typing.PossibleValue]) -> pycep_typing.Modulo:
        operand_1, operand_2 = args

        return {
            ""type"": ""modulo"",
            ""operands"": {
                ""operand_1"": operand_1,
                ""operand_2"": operand_2,
            },
        }

    def multiply(self, args: tuple[pycep_typing.PossibleValue, pycep_typing.PossibleValue]) -> pycep_typing.Multiply:
        operand_1, operand_2 = args

        return {
            ""type"": ""multiply"",
            ""operands"": {
                ""operand_1"": operand_1,
                ""operand_2"": operand_2,
            },
        }

    def substract(self, args: tuple[pycep_typing.PossibleValue, pycep_typing.PossibleValue]) -> pycep_typing.Substract:
        operand_1, operand_2 = args

        return {
            ""type"": ""substract"",
            ""operands"": {
                ""operand_1"": operand_1,
                ""operand_2"": operand_2,
            },
        }

    ####################
    #
    # operators - accessor
    #
    ####################

    def index_accessor(
        self, args: tuple[pycep_typing.PossibleValue, pycep_typing.PossibleValue]
    ) -> pycep_typing.IndexAccessor:
        arg_1, arg_2 = args
        return {""type"": ""index_accessor"", ""operands"": {""operand_1"": arg_1, ""operand_2"": arg_2}}
";
"
    def function_accessor(self, args: tuple[pycep_typing.PossibleValue, ...]) -> pycep_typing.FunctionAccessor:
        arg_1, func_name, *arg_x = args
        return {
            ""type"": ""function_accessor"",
            ""operands"": {
                ""operand_1"": arg_1,
                ""func_name"": str(func_name),
                **{f""operand_{idx + 2}"": extra for idx, extra in enumerate(arg_x) if extra},
            },
        }

    def nested_resource_accessor(
        self, args: tuple[pycep_typing.PossibleValue, pycep_typing.PossibleValue]
    ) -> pycep_typing.NestedResourceAccessor:
        arg_1, arg_2 = args
        return {""type"": ""nested_resource_accessor"", ""operands"": {""operand_1"": arg_1, ""operand_2"": arg_2}}

    def property_accessor(
        self, args: tuple[pycep_typing.PossibleValue, pycep_typing.PossibleValue]
    ) -> pycep_typing.PropertyAccessor:
        arg_1, arg_2 = args
        return {""type"": ""property_accessor"", ""operands"": {""operand_1"": arg_1, ""operand_2"": arg_2}}

    ####################
    #
    # data types
    #
    ####################

    def array(self, args: list[bool | int | Token]) -> list[bool | int | str]:
        return [item.value if isinstance(item, Token) else item for item in args]

    def object(self, args: list[tuple[str, Any]]) -> dict[str, Any]:
        return dict(args)

    def pair(self, args: tuple[str, bool | int | Token]) -> tuple[str, bool | int | str]:
        key, value = args
        return key, value.value if isinstance(value, Token) else value

    def key(self, arg: tuple[Token]) -> str:
        return str(arg[0])

    def int_type(self, arg: tuple[Token]) -> int:
        return int(arg[0])

    def string(self, arg: tuple[Token]) -> str:
        return transform_string_token(arg[0])

    def multi_line_string(self, arg: tuple[Token]) -> str:
        return sanitize_multi_line_string_token(arg[0])

    def true(self, _: Any) -> Literal[True]:  # ruff:ignore[any-type]
        return True

    def false(self, _: Any) -> Literal[False]:  # ruff:ignore[any-type]
        return False

    def null(self, _: Any) -> None:  # ruff:ignore[any-type]
        return None

    def lambda_expression(self, args: tuple[pycep_typing.PossibleValue, ...]) -> pycep_typing.LambdaExpression:
        arg_1, *arg_x, expr = args

        return {
            ""type"": ""lambda_expression"",
            ""detail"": {
                ""var_1"": str(arg_1),
                **{f""var_{idx + 2}"": str(arg) for idx, arg in enumerate(arg_x)},
                ""expression"": expr,
            },
        }

    ####################
    #
    # helper methods
    #
    ####################

    def process_child_resource(
        self, parent_resource_name: str, parent_type_api_pair: pycep_typing.ApiTypeVersion, config: dict[str, Any]
    ) -> None:
        """"""Extracts child resources from a resource config.

        Beware that this method is not idempotent, it modifies the passed in `config`.
        """"""
        if ""__child_resource__"" in config:
            child_resource = config.pop(""__child_resource__"")

            # prefix the resource name with the parent to prevent overlap
            child_resource[""__name__""] = f""{parent_resource_name}__{child_resource['__name__']}""

            # inherit type and api version info from parent resource
            child_type_api_pair: pycep_typing.ApiTypeVersion = {
                ""type"": f""{parent_type_api_pair['type']}/{child_resource['__attrs__']['type']}"",
                ""api_version"": parent_type_api_pair[""api_version""],
            }

            child_resource[""__attrs__""][""type""] = child_type_api_pair[""type""]
            child_resource[""__attrs__""][""api_version""] = child_type_api_pair[""api_version""]
            child_resource[""__attrs__""][""config""].setdefault(""depends_on"", []).append(
                BicepElement(parent_resource_name)
            )

            self.child_resources.append(
                {
                    ""resources"": child_resource,
";
"                }
            )

            self.process_child_resource(
                parent_resource_name=child_resource[""__name__""],
                parent_type_api_pair=child_type_api_pair,
                config=child_resource[""__attrs__""][""config""],
            )
"].
