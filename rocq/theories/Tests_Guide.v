(** The examples of examples/dynamodb/doc/conversion-guide.md and dynamodb-json-format.md, with the numbers of their lines: a check of
    the model, not of the program. The texts are laid out as there; what the program writes has no white space, and a line
    feed behind each item. *)
From Verif Require Import Base U8Pool Buffer Jiter RJiter Scan Conv NormalToDdb DdbToNormal Tests_Converters.

(** The text without the white space outside of strings. *)
Fixpoint tight (quoted : bool) (t : bytes) : bytes :=
  match t with
  | [] => []
  | x :: t =>
      if N.eqb x 34 then x :: tight (negb quoted) t
      else if negb quoted && (N.eqb x 32 || N.eqb x 10) then tight quoted t
      else x :: tight quoted t
  end.
Definition line (t : bytes) : option bytes := Some (tight false t ++ [10%N]).

(** ** conversion-guide.md *)
(** 11-30: the tables, as a member of an object. *)
Example guide_table_1_from :
  from_ddb false AsWrapper (bs "{""x"": {""S"": ""Hello""}}") = line (bs "{""x"": ""Hello""}").
Proof. vm_compute. reflexivity. Qed.
Example guide_table_1_to :
  to_ddb false false (bs "{""x"": ""Hello""}") = line (bs "{""x"": {""S"": ""Hello""}}").
Proof. vm_compute. reflexivity. Qed.
Example guide_table_2_from :
  from_ddb false AsWrapper (bs "{""x"": {""N"": ""42""}}") = line (bs "{""x"": 42}").
Proof. vm_compute. reflexivity. Qed.
Example guide_table_2_to :
  to_ddb false false (bs "{""x"": 42}") = line (bs "{""x"": {""N"": ""42""}}").
Proof. vm_compute. reflexivity. Qed.
Example guide_table_3_from :
  from_ddb false AsWrapper (bs "{""x"": {""N"": ""3.14""}}") = line (bs "{""x"": 3.14}").
Proof. vm_compute. reflexivity. Qed.
Example guide_table_3_to :
  to_ddb false false (bs "{""x"": 3.14}") = line (bs "{""x"": {""N"": ""3.14""}}").
Proof. vm_compute. reflexivity. Qed.
Example guide_table_4_from :
  from_ddb false AsWrapper (bs "{""x"": {""BOOL"": true}}") = line (bs "{""x"": true}").
Proof. vm_compute. reflexivity. Qed.
Example guide_table_4_to :
  to_ddb false false (bs "{""x"": true}") = line (bs "{""x"": {""BOOL"": true}}").
Proof. vm_compute. reflexivity. Qed.
Example guide_table_5_from :
  from_ddb false AsWrapper (bs "{""x"": {""BOOL"": false}}") = line (bs "{""x"": false}").
Proof. vm_compute. reflexivity. Qed.
Example guide_table_5_to :
  to_ddb false false (bs "{""x"": false}") = line (bs "{""x"": {""BOOL"": false}}").
Proof. vm_compute. reflexivity. Qed.
Example guide_table_6_from :
  from_ddb false AsWrapper (bs "{""x"": {""NULL"": true}}") = line (bs "{""x"": null}").
Proof. vm_compute. reflexivity. Qed.
Example guide_table_6_to :
  to_ddb false false (bs "{""x"": null}") = line (bs "{""x"": {""NULL"": true}}").
Proof. vm_compute. reflexivity. Qed.
Example guide_table_7_from :
  from_ddb false AsWrapper (bs "{""x"": {""SS"": [""a"", ""b""]}}") = line (bs "{""x"": [""a"", ""b""]}").
Proof. vm_compute. reflexivity. Qed.
Example guide_table_8_from :
  from_ddb false AsWrapper (bs "{""x"": {""NS"": [""1"", ""2"", ""3""]}}") = line (bs "{""x"": [1, 2, 3]}").
Proof. vm_compute. reflexivity. Qed.
Example guide_table_9_from :
  from_ddb false AsWrapper (bs "{""x"": {""BS"": [""Zmlyc3Q=""]}}") = line (bs "{""x"": [""Zmlyc3Q=""]}").
Proof. vm_compute. reflexivity. Qed.
Example guide_table_10_from :
  from_ddb false AsWrapper (bs "{""x"": {""L"": [{""S"": ""a""}, {""N"": ""1""}, {""BOOL"": true}]}}") = line (bs "{""x"": [""a"", 1, true]}").
Proof. vm_compute. reflexivity. Qed.
Example guide_table_10_to :
  to_ddb false false (bs "{""x"": [""a"", 1, true]}") = line (bs "{""x"": {""L"": [{""S"": ""a""}, {""N"": ""1""}, {""BOOL"": true}]}}").
Proof. vm_compute. reflexivity. Qed.
Example guide_table_11_from :
  from_ddb false AsWrapper (bs "{""x"": {""M"": {""key"": {""S"": ""val""}}}}") = line (bs "{""x"": {""key"": ""val""}}").
Proof. vm_compute. reflexivity. Qed.
Example guide_table_11_to :
  to_ddb false false (bs "{""x"": {""key"": ""val""}}") = line (bs "{""x"": {""M"": {""key"": {""S"": ""val""}}}}").
Proof. vm_compute. reflexivity. Qed.
Example guide_table_12_from :
  from_ddb false AsWrapper (bs "{""x"": {""B"": ""dGVzdA==""}}") = line (bs "{""x"": ""dGVzdA==""}").
Proof. vm_compute. reflexivity. Qed.
(** 32-296: the examples. *)
Example guide_simple_object_from :
  from_ddb false AsWrapper (bs "{
  ""Item"": {
    ""id"": {""S"": ""user-001""},
    ""name"": {""S"": ""Alice""},
    ""age"": {""N"": ""28""},
    ""active"": {""BOOL"": true}
  }
}") = line (bs "{
  ""id"": ""user-001"",
  ""name"": ""Alice"",
  ""age"": 28,
  ""active"": true
}").
Proof. vm_compute. reflexivity. Qed.
Example guide_simple_object_to :
  to_ddb false true (bs "{
  ""id"": ""user-001"",
  ""name"": ""Alice"",
  ""age"": 28,
  ""active"": true
}") = line (bs "{
  ""Item"": {
    ""id"": {""S"": ""user-001""},
    ""name"": {""S"": ""Alice""},
    ""age"": {""N"": ""28""},
    ""active"": {""BOOL"": true}
  }
}").
Proof. vm_compute. reflexivity. Qed.
Example guide_set_from :
  from_ddb false AsWrapper (bs "{
  ""Item"": {
    ""tags"": {""SS"": [""admin"", ""editor"", ""user""]}
  }
}") = line (bs "{
  ""tags"": [""admin"", ""editor"", ""user""]
}").
Proof. vm_compute. reflexivity. Qed.
Example guide_list_from :
  from_ddb false AsWrapper (bs "{
  ""Item"": {
    ""tags"": {
      ""L"": [
        {""S"": ""admin""},
        {""S"": ""editor""},
        {""S"": ""user""}
      ]
    }
  }
}") = line (bs "{
  ""tags"": [""admin"", ""editor"", ""user""]
}").
Proof. vm_compute. reflexivity. Qed.
Example guide_list_to :
  to_ddb false true (bs "{
  ""tags"": [""admin"", ""editor"", ""user""]
}") = line (bs "{
  ""Item"": {
    ""tags"": {
      ""L"": [
        {""S"": ""admin""},
        {""S"": ""editor""},
        {""S"": ""user""}
      ]
    }
  }
}").
Proof. vm_compute. reflexivity. Qed.
Example guide_nested_objects_from :
  from_ddb false AsWrapper (bs "{
  ""Item"": {
    ""profile"": {
      ""M"": {
        ""firstName"": {""S"": ""Alice""},
        ""lastName"": {""S"": ""Smith""},
        ""location"": {
          ""M"": {
            ""city"": {""S"": ""San Francisco""},
            ""zipCode"": {""S"": ""94102""}
          }
        }
      }
    }
  }
}") = line (bs "{
  ""profile"": {
    ""firstName"": ""Alice"",
    ""lastName"": ""Smith"",
    ""location"": {
      ""city"": ""San Francisco"",
      ""zipCode"": ""94102""
    }
  }
}").
Proof. vm_compute. reflexivity. Qed.
Example guide_nested_objects_to :
  to_ddb false true (bs "{
  ""profile"": {
    ""firstName"": ""Alice"",
    ""lastName"": ""Smith"",
    ""location"": {
      ""city"": ""San Francisco"",
      ""zipCode"": ""94102""
    }
  }
}") = line (bs "{
  ""Item"": {
    ""profile"": {
      ""M"": {
        ""firstName"": {""S"": ""Alice""},
        ""lastName"": {""S"": ""Smith""},
        ""location"": {
          ""M"": {
            ""city"": {""S"": ""San Francisco""},
            ""zipCode"": {""S"": ""94102""}
          }
        }
      }
    }
  }
}").
Proof. vm_compute. reflexivity. Qed.
Example guide_mixed_lists_from :
  from_ddb false AsWrapper (bs "{
  ""Item"": {
    ""mixedData"": {
      ""L"": [
        {""S"": ""string""},
        {""N"": ""42""},
        {""BOOL"": true},
        {""M"": {""nested"": {""S"": ""object""}}}
      ]
    }
  }
}") = line (bs "{
  ""mixedData"": [
    ""string"",
    42,
    true,
    {""nested"": ""object""}
  ]
}").
Proof. vm_compute. reflexivity. Qed.
Example guide_mixed_lists_to :
  to_ddb false true (bs "{
  ""mixedData"": [
    ""string"",
    42,
    true,
    {""nested"": ""object""}
  ]
}") = line (bs "{
  ""Item"": {
    ""mixedData"": {
      ""L"": [
        {""S"": ""string""},
        {""N"": ""42""},
        {""BOOL"": true},
        {""M"": {""nested"": {""S"": ""object""}}}
      ]
    }
  }
}").
Proof. vm_compute. reflexivity. Qed.
Example guide_number_sets_from :
  from_ddb false AsWrapper (bs "{
  ""Item"": {
    ""ratings"": {""NS"": [""4.5"", ""4.8"", ""5.0""]}
  }
}") = line (bs "{
  ""ratings"": [4.5, 4.8, 5.0]
}").
Proof. vm_compute. reflexivity. Qed.
Example guide_null_values_from :
  from_ddb false AsWrapper (bs "{
  ""Item"": {
    ""description"": {""NULL"": true},
    ""notes"": {""S"": ""Some text""}
  }
}") = line (bs "{
  ""description"": null,
  ""notes"": ""Some text""
}").
Proof. vm_compute. reflexivity. Qed.
Example guide_null_values_to :
  to_ddb false true (bs "{
  ""description"": null,
  ""notes"": ""Some text""
}") = line (bs "{
  ""Item"": {
    ""description"": {""NULL"": true},
    ""notes"": {""S"": ""Some text""}
  }
}").
Proof. vm_compute. reflexivity. Qed.
Example guide_binary_from :
  from_ddb false AsWrapper (bs "{
  ""Item"": {
    ""image"": {""B"": ""aVZCT1J3MEtHZ29BQUFBTg==""},
    ""thumbnail"": {""B"": ""dGh1bWJuYWlsZGF0YQ==""}
  }
}") = line (bs "{
  ""image"": ""aVZCT1J3MEtHZ29BQUFBTg=="",
  ""thumbnail"": ""dGh1bWJuYWlsZGF0YQ==""
}").
Proof. vm_compute. reflexivity. Qed.
Example guide_binary_set_from :
  from_ddb false AsWrapper (bs "{
  ""Item"": {
    ""images"": {
      ""BS"": [
        ""aVZCT1J3MEtHZ29BQUFBTg=="",
        ""dGh1bWJuYWlsZGF0YQ==""
      ]
    }
  }
}") = line (bs "{""images"": [""aVZCT1J3MEtHZ29BQUFBTg=="", ""dGh1bWJuYWlsZGF0YQ==""]}").
Proof. vm_compute. reflexivity. Qed.
Example guide_real_world_from :
  from_ddb false AsWrapper (bs "{
  ""Item"": {
    ""userId"": {""S"": ""user-001""},
    ""username"": {""S"": ""alice_smith""},
    ""email"": {""S"": ""alice@example.com""},
    ""age"": {""N"": ""28""},
    ""isActive"": {""BOOL"": true},
    ""roles"": {""SS"": [""admin"", ""editor""]},
    ""favoriteNumbers"": {""NS"": [""7"", ""42"", ""100""]},
    ""profile"": {
      ""M"": {
        ""firstName"": {""S"": ""Alice""},
        ""lastName"": {""S"": ""Smith""},
        ""location"": {
          ""M"": {
            ""city"": {""S"": ""San Francisco""},
            ""state"": {""S"": ""CA""}
          }
        }
      }
    },
    ""preferences"": {
      ""M"": {
        ""theme"": {""S"": ""dark""},
        ""notifications"": {""BOOL"": true}
      }
    },
    ""bio"": {""NULL"": true},
    ""score"": {""N"": ""95.7""}
  }
}") = line (bs "{
  ""userId"": ""user-001"",
  ""username"": ""alice_smith"",
  ""email"": ""alice@example.com"",
  ""age"": 28,
  ""isActive"": true,
  ""roles"": [""admin"", ""editor""],
  ""favoriteNumbers"": [7, 42, 100],
  ""profile"": {
    ""firstName"": ""Alice"",
    ""lastName"": ""Smith"",
    ""location"": {
      ""city"": ""San Francisco"",
      ""state"": ""CA""
    }
  },
  ""preferences"": {
    ""theme"": ""dark"",
    ""notifications"": true
  },
  ""bio"": null,
  ""score"": 95.7
}").
Proof. vm_compute. reflexivity. Qed.
(** 300-340: the rules. *)
Example guide_numbers_from :
  from_ddb false AsWrapper (bs "{""age"": {""N"": ""28""}}") = line (bs "{""age"": 28}").
Proof. vm_compute. reflexivity. Qed.
Example guide_numbers_to :
  to_ddb false false (bs "{""age"": 28}") = line (bs "{""age"": {""N"": ""28""}}").
Proof. vm_compute. reflexivity. Qed.
Example guide_maps_from :
  from_ddb false AsWrapper (bs "{""address"": {""M"": {""city"": {""S"": ""NYC""}}}}") = line (bs "{""address"": {""city"": ""NYC""}}").
Proof. vm_compute. reflexivity. Qed.
Example guide_maps_to :
  to_ddb false false (bs "{""address"": {""city"": ""NYC""}}") = line (bs "{""address"": {""M"": {""city"": {""S"": ""NYC""}}}}").
Proof. vm_compute. reflexivity. Qed.
Example guide_nulls_from :
  from_ddb false AsWrapper (bs "{""field"": {""NULL"": true}}") = line (bs "{""field"": null}").
Proof. vm_compute. reflexivity. Qed.
Example guide_nulls_to :
  to_ddb false false (bs "{""field"": null}") = line (bs "{""field"": {""NULL"": true}}").
Proof. vm_compute. reflexivity. Qed.
(** 346-367: one item, and a line for each item. *)
Example guide_single_item_from :
  from_ddb false AsWrapper (bs "{
  ""Item"": {
    ""id"": {""S"": ""001""},
    ""name"": {""S"": ""Alice""}
  }
}") = line (bs "{""id"": ""001"", ""name"": ""Alice""}").
Proof. vm_compute. reflexivity. Qed.
Example guide_single_item_to :
  to_ddb false true (bs "{""id"": ""001"", ""name"": ""Alice""}") = line (bs "{
  ""Item"": {
    ""id"": {""S"": ""001""},
    ""name"": {""S"": ""Alice""}
  }
}").
Proof. vm_compute. reflexivity. Qed.
Example guide_lines_from :
  from_ddb false AsWrapper (bs "{""Item"":{""id"":{""S"":""001""},""name"":{""S"":""Alice""}}}
{""Item"":{""id"":{""S"":""002""},""name"":{""S"":""Bob""}}}
{""Item"":{""id"":{""S"":""003""},""name"":{""S"":""Charlie""}}}
") = Some (bs "{""id"":""001"",""name"":""Alice""}
{""id"":""002"",""name"":""Bob""}
{""id"":""003"",""name"":""Charlie""}
").
Proof. vm_compute. reflexivity. Qed.
Example guide_lines_to :
  to_ddb false true (bs "{""id"":""001"",""name"":""Alice""}
{""id"":""002"",""name"":""Bob""}
{""id"":""003"",""name"":""Charlie""}
") = Some (bs "{""Item"":{""id"":{""S"":""001""},""name"":{""S"":""Alice""}}}
{""Item"":{""id"":{""S"":""002""},""name"":{""S"":""Bob""}}}
{""Item"":{""id"":{""S"":""003""},""name"":{""S"":""Charlie""}}}
").
Proof. vm_compute. reflexivity. Qed.
(** 373-406: what is wrong, and what is right. A set without elements is not refused. *)
Example guide_wrong_number :
  refused (bs "{""age"": {""N"": 28}}") ["Expected string value"%string] = true.
Proof. vm_compute. reflexivity. Qed.
Example guide_right_number :
  from_ddb false AsWrapper (bs "{""age"": {""N"": ""28""}}") = line (bs "{""age"": 28}").
Proof. vm_compute. reflexivity. Qed.
Example guide_wrong_set :
  from_ddb false AsWrapper (bs "{""tags"": {""SS"": []}}") = line (bs "{""tags"": []}").
Proof. vm_compute. reflexivity. Qed.
Example guide_right_list :
  from_ddb false AsWrapper (bs "{""tags"": {""L"": []}}") = line (bs "{""tags"": []}").
Proof. vm_compute. reflexivity. Qed.
Example guide_wrong_types :
  refused (bs "{""Item"": {""name"": ""Alice""}}") ["Invalid DynamoDB JSON format"%string] = true.
Proof. vm_compute. reflexivity. Qed.
Example guide_right_types :
  from_ddb false AsWrapper (bs "{""Item"": {""name"": {""S"": ""Alice""}}}") = line (bs "{""name"": ""Alice""}").
Proof. vm_compute. reflexivity. Qed.

(** ** dynamodb-json-format.md *)
Example format_pattern :
  refused (bs "{
  ""Item"": {
    ""AttributeName"": {
      ""DataType"": ""value""
    }
  }
}") ["unknown type descriptor"%string] = true.
Proof. vm_compute. reflexivity. Qed.
Example format_string :
  from_ddb false AsWrapper (bs "{
  ""Item"": {
    ""Title"": {""S"": ""The Great Gatsby""}
  }
}") = line (bs "{""Title"": ""The Great Gatsby""}").
Proof. vm_compute. reflexivity. Qed.
Example format_number :
  from_ddb false AsWrapper (bs "{
  ""Item"": {
    ""Year"": {""N"": ""1925""}
  }
}") = line (bs "{""Year"": 1925}").
Proof. vm_compute. reflexivity. Qed.
Example format_boolean :
  from_ddb false AsWrapper (bs "{
  ""Item"": {
    ""InStock"": {""BOOL"": true}
  }
}") = line (bs "{""InStock"": true}").
Proof. vm_compute. reflexivity. Qed.
Example format_string_set :
  from_ddb false AsWrapper (bs "{
  ""Item"": {
    ""Authors"": {""SS"": [""F. Scott Fitzgerald"", ""Ernest Hemingway""]}
  }
}") = line (bs "{""Authors"": [""F. Scott Fitzgerald"", ""Ernest Hemingway""]}").
Proof. vm_compute. reflexivity. Qed.
Example format_map :
  from_ddb false AsWrapper (bs "{
  ""Item"": {
    ""Address"": {
      ""M"": {
        ""Street"": {""S"": ""123 Main St""},
        ""City"": {""S"": ""New York""},
        ""Zip"": {""N"": ""10001""}
      }
    }
  }
}") = line (bs "{""Address"": {""Street"": ""123 Main St"", ""City"": ""New York"", ""Zip"": 10001}}").
Proof. vm_compute. reflexivity. Qed.
Example format_list :
  from_ddb false AsWrapper (bs "{
  ""Item"": {
    ""Tags"": {
      ""L"": [
        {""S"": ""fiction""},
        {""S"": ""classic""},
        {""N"": ""1925""}
      ]
    }
  }
}") = line (bs "{""Tags"": [""fiction"", ""classic"", 1925]}").
Proof. vm_compute. reflexivity. Qed.
Example format_complete_item :
  from_ddb false AsWrapper (bs "{
  ""Item"": {
    ""Id"": {""S"": ""book-001""},
    ""Title"": {""S"": ""The Great Gatsby""},
    ""Author"": {""S"": ""F. Scott Fitzgerald""},
    ""Year"": {""N"": ""1925""},
    ""ISBN"": {""S"": ""978-0-7432-7356-5""},
    ""Price"": {""N"": ""12.99""},
    ""InStock"": {""BOOL"": true},
    ""Categories"": {""SS"": [""Fiction"", ""Classic"", ""American Literature""]},
    ""Ratings"": {""NS"": [""4.5"", ""4.8"", ""5.0""]},
    ""Details"": {
      ""M"": {
        ""Publisher"": {""S"": ""Scribner""},
        ""Pages"": {""N"": ""180""},
        ""Language"": {""S"": ""English""}
      }
    },
    ""Reviews"": {
      ""L"": [
        {""S"": ""A masterpiece""},
        {""S"": ""Timeless classic""}
      ]
    }
  }
}") = line (bs "{""Id"": ""book-001"", ""Title"": ""The Great Gatsby"", ""Author"": ""F. Scott Fitzgerald"", ""Year"": 1925, ""ISBN"": ""978-0-7432-7356-5"", ""Price"": 12.99, ""InStock"": true, ""Categories"": [""Fiction"", ""Classic"", ""American Literature""], ""Ratings"": [4.5, 4.8, 5.0], ""Details"": {""Publisher"": ""Scribner"", ""Pages"": 180, ""Language"": ""English""}, ""Reviews"": [""A masterpiece"", ""Timeless classic""]}").
Proof. vm_compute. reflexivity. Qed.
Example format_full_export :
  from_ddb false AsWrapper (bs "{
  ""Item"": {
    ""PrimaryKey"": {""S"": ""key-value""},
    ""Attribute1"": {""N"": ""123""},
    ""Attribute2"": {""S"": ""value""}
  }
}") = line (bs "{""PrimaryKey"": ""key-value"", ""Attribute1"": 123, ""Attribute2"": ""value""}").
Proof. vm_compute. reflexivity. Qed.
Example format_binary :
  from_ddb false AsWrapper (bs "{""Item"": {""Image"": {""B"": ""iVBORw0KGgoAAAANSUhEUgAAAAUA...""}}}") = line (bs "{""Image"": ""iVBORw0KGgoAAAANSUhEUgAAAAUA...""}").
Proof. vm_compute. reflexivity. Qed.
Example format_null :
  from_ddb false AsWrapper (bs "{""Item"": {""OptionalField"": {""NULL"": true}}}") = line (bs "{""OptionalField"": null}").
Proof. vm_compute. reflexivity. Qed.
Example format_import :
  from_ddb false AsWrapper (bs "{""Item"": {""Id"": {""S"": ""1""}, ""Name"": {""S"": ""Alice""}, ""Age"": {""N"": ""30""}}}
{""Item"": {""Id"": {""S"": ""2""}, ""Name"": {""S"": ""Bob""}, ""Age"": {""N"": ""25""}}}
{""Item"": {""Id"": {""S"": ""3""}, ""Name"": {""S"": ""Charlie""}, ""Age"": {""N"": ""35""}}}") = Some (bs "{""Id"":""1"",""Name"":""Alice"",""Age"":30}
{""Id"":""2"",""Name"":""Bob"",""Age"":25}
{""Id"":""3"",""Name"":""Charlie"",""Age"":35}
").
Proof. vm_compute. reflexivity. Qed.
Example format_numbers :
  from_ddb false AsWrapper (bs "{""Item"": {""Price"": {""N"": ""19.99""}}}
{""Item"": {""Quantity"": {""N"": ""42""}}}") = Some (bs "{""Price"":19.99}
{""Quantity"":42}
").
Proof. vm_compute. reflexivity. Qed.
(** An incremental export and a request are no items; they are refused. *)
Example format_incremental_export :
  refused (bs "{
  ""Metadata"": {
    ""WriteTimestampMicros"": 1234567890123456
  },
  ""Keys"": {
    ""Id"": {""S"": ""key-value""}
  },
  ""NewImage"": {
    ""Id"": {""S"": ""key-value""},
    ""Name"": {""S"": ""Updated Name""},
    ""Status"": {""S"": ""active""}
  },
  ""OldImage"": {
    ""Id"": {""S"": ""key-value""},
    ""Name"": {""S"": ""Old Name""},
    ""Status"": {""S"": ""inactive""}
  }
}") ["unknown type descriptor"%string] = true.
Proof. vm_compute. reflexivity. Qed.
Example format_request :
  refused (bs "{
  ""TableName"": ""MyTable"",
  ""Key"": {
    ""Id"": {""S"": ""item-123""}
  }
}") ["Invalid DynamoDB JSON format"%string] = true.
Proof. vm_compute. reflexivity. Qed.
