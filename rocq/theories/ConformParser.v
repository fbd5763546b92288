(** The inputs and expected outputs of the project's own parser tests
    (pkg/ddl/*/parser_test.go), evaluated in the model. *)
From Verif Require Import GoStr Token Lexer Ast Parser.

Definition printed (d : dialect) (s : string) : res string :=
  match parse d (fun cs => cs) s with
  | Ok ss => Ok (ddl_string d ss)
  | Err => Err | Panic => Panic | OutOfFuel => OutOfFuel
  end.


Example parse_Pg_failure_1 : printed Pg ")invalid" = Err.
Proof. vm_compute. reflexivity. Qed.

Example parse_Pg_failure_2 : printed Pg "CREATE INVALID;" = Err.
Proof. vm_compute. reflexivity. Qed.

Example parse_Pg_failure_3 : printed Pg "CREATE TABLE;" = Err.
Proof. vm_compute. reflexivity. Qed.

Example parse_Pg_failure_4 : printed Pg "CREATE TABLE IF;" = Err.
Proof. vm_compute. reflexivity. Qed.

Example parse_Pg_failure_5 : printed Pg "CREATE TABLE IF NOT;" = Err.
Proof. vm_compute. reflexivity. Qed.

Example parse_Pg_failure_6 : printed Pg "CREATE TABLE ""users"";" = Err.
Proof. vm_compute. reflexivity. Qed.

Example parse_Pg_failure_7 : printed Pg "CREATE TABLE ""users"" (""id"";" = Err.
Proof. vm_compute. reflexivity. Qed.

Example parse_Pg_failure_8 : printed Pg "CREATE TABLE ""users"" (""id"" UUID;" = Err.
Proof. vm_compute. reflexivity. Qed.

Example parse_Pg_failure_9 : printed Pg "CREATE TABLE ""users"" (""id"" UUID, CONSTRAINT ""invalid"" NOT;" = Err.
Proof. vm_compute. reflexivity. Qed.

Example parse_Pg_failure_10 : printed Pg "CREATE TABLE ""users"" (""id"" UUID)(;" = Err.
Proof. vm_compute. reflexivity. Qed.

Example parse_Pg_failure_11 : printed Pg "CREATE TABLE ""users"" (""id"" UUID,(;" = Err.
Proof. vm_compute. reflexivity. Qed.

Example parse_Pg_failure_12 : printed Pg "CREATE TABLE ""users"" (""id"" VARYING();" = Err.
Proof. vm_compute. reflexivity. Qed.

Example parse_Pg_failure_13 : printed Pg "CREATE TABLE ""users"" (""id"" UUID NULL NOT;" = Err.
Proof. vm_compute. reflexivity. Qed.

Example parse_Pg_failure_14 : printed Pg "CREATE TABLE ""users"" (""id"" UUID DEFAULT (""id"")" = Err.
Proof. vm_compute. reflexivity. Qed.

Example parse_Pg_failure_15 : printed Pg "CREATE TABLE ""users"" (""id"" UUID DEFAULT (""id""," = Err.
Proof. vm_compute. reflexivity. Qed.

Example parse_Pg_failure_16 : printed Pg "CREATE TABLE ""users"" (""id"" UUID PRIMARY NOT" = Err.
Proof. vm_compute. reflexivity. Qed.

Example parse_Pg_failure_17 : printed Pg "CREATE TABLE ""users"" (""id"" UUID REFERENCES NOT" = Err.
Proof. vm_compute. reflexivity. Qed.

Example parse_Pg_failure_18 : printed Pg "CREATE TABLE ""users"" (""id"" UUID REFERENCES ""groups"" (NOT" = Err.
Proof. vm_compute. reflexivity. Qed.

Example parse_Pg_failure_19 : printed Pg "CREATE TABLE ""users"" (""id"" UUID CHECK NOT" = Err.
Proof. vm_compute. reflexivity. Qed.

Example parse_Pg_failure_20 : printed Pg "CREATE TABLE ""users"" (""id"" UUID CHECK (NOT" = Err.
Proof. vm_compute. reflexivity. Qed.

Example parse_Pg_failure_21 : printed Pg "CREATE TABLE ""users"" (""id"" UUID, CONSTRAINT NOT" = Err.
Proof. vm_compute. reflexivity. Qed.

Example parse_Pg_failure_22 : printed Pg "CREATE TABLE ""users"" (""id"" UUID, PRIMARY NOT" = Err.
Proof. vm_compute. reflexivity. Qed.

Example parse_Pg_failure_23 : printed Pg "CREATE TABLE ""users"" (""id"" UUID, PRIMARY KEY NOT" = Err.
Proof. vm_compute. reflexivity. Qed.

Example parse_Pg_failure_24 : printed Pg "CREATE TABLE ""users"" (""id"" UUID, PRIMARY KEY (NOT" = Err.
Proof. vm_compute. reflexivity. Qed.

Example parse_Pg_failure_25 : printed Pg "CREATE TABLE ""users"" (""id"" UUID REFERENCES foo (foo_id) ON" = Err.
Proof. vm_compute. reflexivity. Qed.

Example parse_Pg_failure_26 : printed Pg "CREATE TABLE ""users"" (""id"" UUID REFERENCES foo (foo_id) ON DELETE" = Err.
Proof. vm_compute. reflexivity. Qed.

Example parse_Pg_failure_27 : printed Pg "CREATE TABLE ""users"" (""id"" UUID REFERENCES foo (foo_id) ON DELETE NO" = Err.
Proof. vm_compute. reflexivity. Qed.

Example parse_Pg_failure_28 : printed Pg "CREATE TABLE ""users"" (""id"" UUID REFERENCES foo (foo_id) ON DELETE NO ACTION" = Err.
Proof. vm_compute. reflexivity. Qed.

Example parse_Pg_failure_29 : printed Pg "CREATE TABLE ""users"" (""id"" UUID, FOREIGN NOT" = Err.
Proof. vm_compute. reflexivity. Qed.

Example parse_Pg_failure_30 : printed Pg "CREATE TABLE ""users"" (""id"" UUID, FOREIGN KEY NOT" = Err.
Proof. vm_compute. reflexivity. Qed.

Example parse_Pg_failure_31 : printed Pg "CREATE TABLE ""users"" (""id"" UUID, FOREIGN KEY (NOT" = Err.
Proof. vm_compute. reflexivity. Qed.

Example parse_Pg_failure_32 : printed Pg "CREATE TABLE ""users"" (""id"" UUID, FOREIGN KEY (""group_id"") NOT" = Err.
Proof. vm_compute. reflexivity. Qed.

Example parse_Pg_failure_33 : printed Pg "CREATE TABLE ""users"" (""id"" UUID, FOREIGN KEY (""group_id"") REFERENCES " = Err.
Proof. vm_compute. reflexivity. Qed.

Example parse_Pg_failure_34 : printed Pg "CREATE TABLE ""users"" (""id"" UUID, FOREIGN KEY (""group_id"") REFERENCES ""groups"" NOT" = Err.
Proof. vm_compute. reflexivity. Qed.

Example parse_Pg_failure_35 : printed Pg "CREATE TABLE ""users"" (""id"" UUID, FOREIGN KEY (""group_id"") REFERENCES ""groups"" (""id"")" = Err.
Proof. vm_compute. reflexivity. Qed.

Example parse_Pg_failure_36 : printed Pg "CREATE TABLE ""users"" (""id"" UUID, FOREIGN KEY (""group_id"") REFERENCES ""groups"" (""id"") ON" = Err.
Proof. vm_compute. reflexivity. Qed.

Example parse_Pg_failure_37 : printed Pg "CREATE TABLE ""users"" (""id"" UUID, FOREIGN KEY (""group_id"") REFERENCES ""groups"" (""id"") ON DELETE" = Err.
Proof. vm_compute. reflexivity. Qed.

Example parse_Pg_failure_38 : printed Pg "CREATE TABLE ""users"" (""id"" UUID, FOREIGN KEY (""group_id"") REFERENCES ""groups"" (""id"") ON DELETE NO" = Err.
Proof. vm_compute. reflexivity. Qed.

Example parse_Pg_failure_39 : printed Pg "CREATE TABLE ""users"" (""id"" UUID, FOREIGN KEY (""group_id"") REFERENCES ""groups"" (""id"") ON DELETE NO ACTION" = Err.
Proof. vm_compute. reflexivity. Qed.

Example parse_Pg_failure_40 : printed Pg "CREATE TABLE ""users"" (""id"" UUID, UNIQUE NOT" = Err.
Proof. vm_compute. reflexivity. Qed.

Example parse_Pg_failure_41 : printed Pg "CREATE TABLE ""users"" (""id"" UUID, UNIQUE;" = Err.
Proof. vm_compute. reflexivity. Qed.

Example parse_Pg_failure_42 : printed Pg "CREATE TABLE ""users"" (""id"" UUID, UNIQUE (;" = Err.
Proof. vm_compute. reflexivity. Qed.

Example parse_Pg_failure_43 : printed Pg "CREATE TABLE ""users"" (""id"" UUID, name TEXT, UNIQUE (""id"", name)" = Err.
Proof. vm_compute. reflexivity. Qed.

Example parse_Pg_failure_44 : printed Pg "CREATE INDEX NOT" = Err.
Proof. vm_compute. reflexivity. Qed.

Example parse_Pg_failure_45 : printed Pg "CREATE INDEX IF;" = Err.
Proof. vm_compute. reflexivity. Qed.

Example parse_Pg_failure_46 : printed Pg "CREATE INDEX IF NOT;" = Err.
Proof. vm_compute. reflexivity. Qed.

Example parse_Pg_failure_47 : printed Pg "CREATE INDEX IF NOT EXISTS;" = Err.
Proof. vm_compute. reflexivity. Qed.

Example parse_Pg_failure_48 : printed Pg "CREATE INDEX users_idx_username NOT" = Err.
Proof. vm_compute. reflexivity. Qed.

Example parse_Pg_failure_49 : printed Pg "CREATE INDEX users_idx_username ON NOT" = Err.
Proof. vm_compute. reflexivity. Qed.

Example parse_Pg_failure_50 : printed Pg "CREATE INDEX users_idx_username ON users NOT" = Err.
Proof. vm_compute. reflexivity. Qed.

Example parse_Pg_failure_51 : printed Pg "CREATE INDEX users_idx_username ON users USING NOT" = Err.
Proof. vm_compute. reflexivity. Qed.

Example parse_Pg_failure_52 : printed Pg "CREATE INDEX users_idx_username ON users USING btree NOT" = Err.
Proof. vm_compute. reflexivity. Qed.

Example parse_Pg_failure_53 : printed Pg "CREATE INDEX users_idx_username ON users USING btree (NOT)" = Err.
Proof. vm_compute. reflexivity. Qed.

Example parse_Pg_success_1 : printed Pg "CREATE TABLE public.groups (""id"" UUID NOT NULL PRIMARY KEY, description TEXT); CREATE TABLE public.users (id UUID NOT NULL, group_id UUID NOT NULL REFERENCES ""groups"" (""id""), ""name"" VARCHAR(255) NOT NULL UNIQUE, ""age"" INT DEFAULT 0 CHECK (""age"" >= 0), birthday TIMESTAMP NOT NULL, description TEXT, PRIMARY KEY (""id""));" = Ok "CREATE TABLE public.groups (
    ""id"" UUID NOT NULL,
    description TEXT,
    CONSTRAINT groups_pkey PRIMARY KEY (""id"")
);
CREATE TABLE public.users (
    id UUID NOT NULL,
    group_id UUID NOT NULL,
    ""name"" VARCHAR(255) NOT NULL,
    ""age"" INT DEFAULT 0,
    birthday TIMESTAMP NOT NULL,
    description TEXT,
    CONSTRAINT users_group_id_fkey FOREIGN KEY (group_id) REFERENCES ""groups"" (""id""),
    CONSTRAINT users_unique_name UNIQUE (""name""),
    CONSTRAINT users_age_check CHECK (""age"" >= 0),
    CONSTRAINT users_pkey PRIMARY KEY (""id"")
);
".
Proof. vm_compute. reflexivity. Qed.

Example parse_Pg_success_2 : printed Pg "-- table: complex_defaults
CREATE TABLE IF NOT EXISTS complex_defaults (
    -- id is the primary key.
    id SERIAL PRIMARY KEY,
    created_at TIMESTAMP WITH TIME ZONE DEFAULT CURRENT_TIMESTAMP,
    updated_at TIMESTAMPTZ DEFAULT CURRENT_TIMESTAMP,
    unique_code TEXT DEFAULT 'CODE-' || TO_CHAR(NOW(), 'YYYYMMDDHH24MISS') || '-' || LPAD(TO_CHAR(NEXTVAL('seq_complex_default')), 5, '0'),
    status TEXT DEFAULT 'pending',
    random_number INTEGER DEFAULT FLOOR(RANDOM() * 100::INTEGER)::INTEGER,
    json_data JSONB DEFAULT '{}',
    calculated_value INTEGER DEFAULT (SELECT COUNT(*) FROM another_table)
);
" = Ok "CREATE TABLE IF NOT EXISTS complex_defaults (
    id SERIAL,
    created_at TIMESTAMP WITH TIME ZONE DEFAULT CURRENT_TIMESTAMP,
    updated_at TIMESTAMPTZ DEFAULT CURRENT_TIMESTAMP,
    unique_code TEXT DEFAULT 'CODE-' || TO_CHAR(NOW(), 'YYYYMMDDHH24MISS') || '-' || LPAD(TO_CHAR(NEXTVAL('seq_complex_default')), 5, '0'),
    status TEXT DEFAULT 'pending',
    random_number INTEGER DEFAULT FLOOR(RANDOM() * 100::INTEGER)::INTEGER,
    json_data JSONB DEFAULT '{}',
    calculated_value INTEGER DEFAULT (SELECT COUNT(*) FROM another_table),
    CONSTRAINT complex_defaults_pkey PRIMARY KEY (id)
);
".
Proof. vm_compute. reflexivity. Qed.

Example parse_Crdb_failure_1 : printed Crdb ")invalid" = Err.
Proof. vm_compute. reflexivity. Qed.

Example parse_Crdb_failure_2 : printed Crdb "CREATE INVALID;" = Err.
Proof. vm_compute. reflexivity. Qed.

Example parse_Crdb_failure_3 : printed Crdb "CREATE TABLE;" = Err.
Proof. vm_compute. reflexivity. Qed.

Example parse_Crdb_failure_4 : printed Crdb "CREATE TABLE IF;" = Err.
Proof. vm_compute. reflexivity. Qed.

Example parse_Crdb_failure_5 : printed Crdb "CREATE TABLE IF NOT;" = Err.
Proof. vm_compute. reflexivity. Qed.

Example parse_Crdb_failure_6 : printed Crdb "CREATE TABLE ""users"";" = Err.
Proof. vm_compute. reflexivity. Qed.

Example parse_Crdb_failure_7 : printed Crdb "CREATE TABLE ""users"" (""id"";" = Err.
Proof. vm_compute. reflexivity. Qed.

Example parse_Crdb_failure_8 : printed Crdb "CREATE TABLE ""users"" (""id"" UUID;" = Err.
Proof. vm_compute. reflexivity. Qed.

Example parse_Crdb_failure_9 : printed Crdb "CREATE TABLE ""users"" (""id"" UUID, CONSTRAINT ""invalid"" NOT;" = Err.
Proof. vm_compute. reflexivity. Qed.

Example parse_Crdb_failure_10 : printed Crdb "CREATE TABLE ""users"" (""id"" UUID)(;" = Err.
Proof. vm_compute. reflexivity. Qed.

Example parse_Crdb_failure_11 : printed Crdb "CREATE TABLE ""users"" (""id"" TIMESTAMP CREATE" = Err.
Proof. vm_compute. reflexivity. Qed.

Example parse_Crdb_failure_12 : printed Crdb "CREATE TABLE ""users"" (""id"" VARYING();" = Err.
Proof. vm_compute. reflexivity. Qed.

Example parse_Crdb_failure_13 : printed Crdb "CREATE TABLE ""users"" (""id"" UUID NULL NOT;" = Err.
Proof. vm_compute. reflexivity. Qed.

Example parse_Crdb_failure_14 : printed Crdb "CREATE TABLE ""users"" (""id"" UUID DEFAULT (""id"")" = Err.
Proof. vm_compute. reflexivity. Qed.

Example parse_Crdb_failure_15 : printed Crdb "CREATE TABLE ""users"" (""id"" UUID DEFAULT (""id""," = Err.
Proof. vm_compute. reflexivity. Qed.

Example parse_Crdb_failure_16 : printed Crdb "CREATE TABLE ""users"" (""id"" UUID PRIMARY NOT" = Err.
Proof. vm_compute. reflexivity. Qed.

Example parse_Crdb_failure_17 : printed Crdb "CREATE TABLE ""users"" (""id"" UUID REFERENCES NOT" = Err.
Proof. vm_compute. reflexivity. Qed.

Example parse_Crdb_failure_18 : printed Crdb "CREATE TABLE ""users"" (""id"" UUID REFERENCES ""groups"" (NOT" = Err.
Proof. vm_compute. reflexivity. Qed.

Example parse_Crdb_failure_19 : printed Crdb "CREATE TABLE ""users"" (""id"" UUID CHECK NOT" = Err.
Proof. vm_compute. reflexivity. Qed.

Example parse_Crdb_failure_20 : printed Crdb "CREATE TABLE ""users"" (""id"" UUID CHECK (NOT" = Err.
Proof. vm_compute. reflexivity. Qed.

Example parse_Crdb_failure_21 : printed Crdb "CREATE TABLE ""users"" (""id"" UUID, CONSTRAINT NOT" = Err.
Proof. vm_compute. reflexivity. Qed.

Example parse_Crdb_failure_22 : printed Crdb "CREATE TABLE ""users"" (""id"" UUID, PRIMARY NOT" = Err.
Proof. vm_compute. reflexivity. Qed.

Example parse_Crdb_failure_23 : printed Crdb "CREATE TABLE ""users"" (""id"" UUID, PRIMARY KEY NOT" = Err.
Proof. vm_compute. reflexivity. Qed.

Example parse_Crdb_failure_24 : printed Crdb "CREATE TABLE ""users"" (""id"" UUID, PRIMARY KEY (NOT" = Err.
Proof. vm_compute. reflexivity. Qed.

Example parse_Crdb_failure_25 : printed Crdb "CREATE TABLE ""users"" (""id"" UUID REFERENCES foo (foo_id) ON" = Err.
Proof. vm_compute. reflexivity. Qed.

Example parse_Crdb_failure_26 : printed Crdb "CREATE TABLE ""users"" (""id"" UUID REFERENCES foo (foo_id) ON DELETE" = Err.
Proof. vm_compute. reflexivity. Qed.

Example parse_Crdb_failure_27 : printed Crdb "CREATE TABLE ""users"" (""id"" UUID REFERENCES foo (foo_id) ON DELETE NO" = Err.
Proof. vm_compute. reflexivity. Qed.

Example parse_Crdb_failure_28 : printed Crdb "CREATE TABLE ""users"" (""id"" UUID REFERENCES foo (foo_id) ON DELETE NO ACTION" = Err.
Proof. vm_compute. reflexivity. Qed.

Example parse_Crdb_failure_29 : printed Crdb "CREATE TABLE ""users"" (""id"" UUID, FOREIGN NOT" = Err.
Proof. vm_compute. reflexivity. Qed.

Example parse_Crdb_failure_30 : printed Crdb "CREATE TABLE ""users"" (""id"" UUID, FOREIGN KEY NOT" = Err.
Proof. vm_compute. reflexivity. Qed.

Example parse_Crdb_failure_31 : printed Crdb "CREATE TABLE ""users"" (""id"" UUID, FOREIGN KEY (NOT" = Err.
Proof. vm_compute. reflexivity. Qed.

Example parse_Crdb_failure_32 : printed Crdb "CREATE TABLE ""users"" (""id"" UUID, FOREIGN KEY (""group_id"") NOT" = Err.
Proof. vm_compute. reflexivity. Qed.

Example parse_Crdb_failure_33 : printed Crdb "CREATE TABLE ""users"" (""id"" UUID, FOREIGN KEY (""group_id"") REFERENCES " = Err.
Proof. vm_compute. reflexivity. Qed.

Example parse_Crdb_failure_34 : printed Crdb "CREATE TABLE ""users"" (""id"" UUID, FOREIGN KEY (""group_id"") REFERENCES ""groups"" NOT" = Err.
Proof. vm_compute. reflexivity. Qed.

Example parse_Crdb_failure_35 : printed Crdb "CREATE TABLE ""users"" (""id"" UUID, FOREIGN KEY (""group_id"") REFERENCES ""groups"" (""id"")" = Err.
Proof. vm_compute. reflexivity. Qed.

Example parse_Crdb_failure_36 : printed Crdb "CREATE TABLE ""users"" (""id"" UUID, FOREIGN KEY (""group_id"") REFERENCES ""groups"" (""id"") ON" = Err.
Proof. vm_compute. reflexivity. Qed.

Example parse_Crdb_failure_37 : printed Crdb "CREATE TABLE ""users"" (""id"" UUID, FOREIGN KEY (""group_id"") REFERENCES ""groups"" (""id"") ON DELETE" = Err.
Proof. vm_compute. reflexivity. Qed.

Example parse_Crdb_failure_38 : printed Crdb "CREATE TABLE ""users"" (""id"" UUID, FOREIGN KEY (""group_id"") REFERENCES ""groups"" (""id"") ON DELETE NO" = Err.
Proof. vm_compute. reflexivity. Qed.

Example parse_Crdb_failure_39 : printed Crdb "CREATE TABLE ""users"" (""id"" UUID, FOREIGN KEY (""group_id"") REFERENCES ""groups"" (""id"") ON DELETE NO ACTION" = Err.
Proof. vm_compute. reflexivity. Qed.

Example parse_Crdb_failure_40 : printed Crdb "CREATE TABLE ""users"" (""id"" UUID, UNIQUE NOT" = Err.
Proof. vm_compute. reflexivity. Qed.

Example parse_Crdb_failure_41 : printed Crdb "CREATE TABLE ""users"" (""id"" UUID, UNIQUE INDEX users_idx_name NOT" = Err.
Proof. vm_compute. reflexivity. Qed.

Example parse_Crdb_failure_42 : printed Crdb "CREATE TABLE ""users"" (""id"" UUID, UNIQUE INDEX users_idx_name (NOT" = Err.
Proof. vm_compute. reflexivity. Qed.

Example parse_Crdb_failure_43 : printed Crdb "CREATE TABLE ""users"" (""id"" UUID, UNIQUE INDEX NOT" = Err.
Proof. vm_compute. reflexivity. Qed.

Example parse_Crdb_failure_44 : printed Crdb "CREATE TABLE ""users"" (""id"" UUID, name TEXT, UNIQUE (""id"", name)" = Err.
Proof. vm_compute. reflexivity. Qed.

Example parse_Crdb_failure_45 : printed Crdb "CREATE INDEX NOT" = Err.
Proof. vm_compute. reflexivity. Qed.

Example parse_Crdb_failure_46 : printed Crdb "CREATE INDEX IF;" = Err.
Proof. vm_compute. reflexivity. Qed.

Example parse_Crdb_failure_47 : printed Crdb "CREATE INDEX IF NOT;" = Err.
Proof. vm_compute. reflexivity. Qed.

Example parse_Crdb_failure_48 : printed Crdb "CREATE INDEX IF NOT EXISTS;" = Err.
Proof. vm_compute. reflexivity. Qed.

Example parse_Crdb_failure_49 : printed Crdb "CREATE INDEX users_idx_username NOT" = Err.
Proof. vm_compute. reflexivity. Qed.

Example parse_Crdb_failure_50 : printed Crdb "CREATE INDEX users_idx_username ON NOT" = Err.
Proof. vm_compute. reflexivity. Qed.

Example parse_Crdb_failure_51 : printed Crdb "CREATE INDEX users_idx_username ON users NOT" = Err.
Proof. vm_compute. reflexivity. Qed.

Example parse_Crdb_failure_52 : printed Crdb "CREATE INDEX users_idx_username ON users USING NOT" = Err.
Proof. vm_compute. reflexivity. Qed.

Example parse_Crdb_failure_53 : printed Crdb "CREATE INDEX users_idx_username ON users USING btree NOT" = Err.
Proof. vm_compute. reflexivity. Qed.

Example parse_Crdb_failure_54 : printed Crdb "CREATE INDEX users_idx_username ON users USING btree (NOT)" = Err.
Proof. vm_compute. reflexivity. Qed.

Example parse_Crdb_success_1 : printed Crdb "CREATE TABLE ""groups"" (""id"" UUID NOT NULL PRIMARY KEY, description TEXT); CREATE TABLE ""users"" (id UUID NOT NULL, group_id UUID NOT NULL REFERENCES ""groups"" (""id"") ON DELETE NO ACTION, ""name"" VARCHAR(255) NOT NULL UNIQUE, ""age"" INT DEFAULT 0 CHECK (""age"" >= 0), description TEXT, PRIMARY KEY (""id""));" = Ok "CREATE TABLE ""groups"" (
    ""id"" UUID NOT NULL,
    description TEXT,
    CONSTRAINT groups_pkey PRIMARY KEY (""id"")
);
CREATE TABLE ""users"" (
    id UUID NOT NULL,
    group_id UUID NOT NULL,
    ""name"" VARCHAR(255) NOT NULL,
    ""age"" INT DEFAULT 0,
    description TEXT,
    CONSTRAINT users_pkey PRIMARY KEY (""id""),
    CONSTRAINT users_group_id_fkey FOREIGN KEY (group_id) REFERENCES ""groups"" (""id"") ON DELETE NO ACTION,
    UNIQUE INDEX users_unique_name (""name""),
    CONSTRAINT users_age_check CHECK (""age"" >= 0)
);
".
Proof. vm_compute. reflexivity. Qed.

Example parse_Crdb_success_2 : printed Crdb "-- table: complex_defaults
CREATE TABLE IF NOT EXISTS complex_defaults (
    -- id is the primary key.
    id SERIAL PRIMARY KEY,
    created_at TIMESTAMP DEFAULT CURRENT_TIMESTAMP,
    updated_at TIMESTAMP WITH TIME ZONE DEFAULT CURRENT_TIMESTAMP,
    unique_code TEXT DEFAULT 'CODE-' || TO_CHAR(NOW(), 'YYYYMMDDHH24MISS') || '-' || LPAD(TO_CHAR(NEXTVAL('seq_complex_default')), 5, '0'),
    status CHARACTER VARYING DEFAULT 'pending',
    random_number INTEGER DEFAULT FLOOR(RANDOM() * 100::INTEGER)::INTEGER,
    json_data JSONB DEFAULT '{}',
    calculated_value INTEGER DEFAULT (SELECT COUNT(*) FROM another_table)
);
" = Ok "CREATE TABLE IF NOT EXISTS complex_defaults (
    id SERIAL,
    created_at TIMESTAMP DEFAULT CURRENT_TIMESTAMP,
    updated_at TIMESTAMP WITH TIME ZONE DEFAULT CURRENT_TIMESTAMP,
    unique_code TEXT DEFAULT 'CODE-' || TO_CHAR(NOW(), 'YYYYMMDDHH24MISS') || '-' || LPAD(TO_CHAR(NEXTVAL('seq_complex_default')), 5, '0'),
    status CHARACTER VARYING DEFAULT 'pending',
    random_number INTEGER DEFAULT FLOOR(RANDOM() * 100::INTEGER)::INTEGER,
    json_data JSONB DEFAULT '{}',
    calculated_value INTEGER DEFAULT (SELECT COUNT(*) FROM another_table),
    CONSTRAINT complex_defaults_pkey PRIMARY KEY (id)
);
".
Proof. vm_compute. reflexivity. Qed.

Example parse_Crdb_success_3 : printed Crdb "CREATE TABLE IF NOT EXISTS public.users (
    user_id UUID NOT NULL,
    username VARCHAR(256) NOT NULL,
    is_verified BOOL NOT NULL DEFAULT false,
    created_at TIMESTAMPTZ NOT NULL DEFAULT timezone('UTC':::STRING, current_timestamp():::TIMESTAMPTZ),
    updated_at TIMESTAMPTZ NOT NULL DEFAULT timezone('UTC':::STRING, current_timestamp():::TIMESTAMPTZ),
    CONSTRAINT users_pkey PRIMARY KEY (user_id ASC),
    INDEX users_idx_by_username (username DESC)
);
" = Ok "CREATE TABLE IF NOT EXISTS public.users (
    user_id UUID NOT NULL,
    username VARCHAR(256) NOT NULL,
    is_verified BOOL NOT NULL DEFAULT false,
    created_at TIMESTAMPTZ NOT NULL DEFAULT timezone('UTC':::STRING, current_timestamp():::TIMESTAMPTZ),
    updated_at TIMESTAMPTZ NOT NULL DEFAULT timezone('UTC':::STRING, current_timestamp():::TIMESTAMPTZ),
    CONSTRAINT users_pkey PRIMARY KEY (user_id ASC),
    INDEX users_idx_by_username (username DESC)
);
".
Proof. vm_compute. reflexivity. Qed.

Example parse_My_failure_1 : printed My ")invalid" = Err.
Proof. vm_compute. reflexivity. Qed.

Example parse_My_failure_2 : printed My "CREATE INVALID;" = Err.
Proof. vm_compute. reflexivity. Qed.

Example parse_My_failure_3 : printed My "CREATE TABLE;" = Err.
Proof. vm_compute. reflexivity. Qed.

Example parse_My_failure_4 : printed My "CREATE TABLE IF;" = Err.
Proof. vm_compute. reflexivity. Qed.

Example parse_My_failure_5 : printed My "CREATE TABLE IF NOT;" = Err.
Proof. vm_compute. reflexivity. Qed.

Example parse_My_failure_6 : printed My "CREATE TABLE ""users"";" = Err.
Proof. vm_compute. reflexivity. Qed.

Example parse_My_failure_7 : printed My "CREATE TABLE ""users"" (""id"";" = Err.
Proof. vm_compute. reflexivity. Qed.

Example parse_My_failure_8 : printed My "CREATE TABLE ""users"" (""id"" VARCHAR(36);" = Err.
Proof. vm_compute. reflexivity. Qed.

Example parse_My_failure_9 : printed My "CREATE TABLE ""users"" (""id"" VARCHAR(36) CHARACTER" = Err.
Proof. vm_compute. reflexivity. Qed.

Example parse_My_failure_10 : printed My "CREATE TABLE ""users"" (""id"" VARCHAR(36) CHARACTER SET" = Err.
Proof. vm_compute. reflexivity. Qed.

Example parse_My_failure_11 : printed My "CREATE TABLE ""users"" (""id"" VARCHAR(36), CONSTRAINT ""invalid"" NOT;" = Err.
Proof. vm_compute. reflexivity. Qed.

Example parse_My_failure_12 : printed My "CREATE TABLE ""users"" (""id"" VARCHAR(36))(;" = Err.
Proof. vm_compute. reflexivity. Qed.

Example parse_My_failure_13 : printed My "CREATE TABLE ""users"" (""id"" TIMESTAMP CREATE" = Err.
Proof. vm_compute. reflexivity. Qed.

Example parse_My_failure_14 : printed My "CREATE TABLE ""users"" (""id"" VARYING();" = Err.
Proof. vm_compute. reflexivity. Qed.

Example parse_My_failure_15 : printed My "CREATE TABLE ""users"" (""id"" VARCHAR(36) NULL NOT;" = Err.
Proof. vm_compute. reflexivity. Qed.

Example parse_My_failure_16 : printed My "CREATE TABLE ""users"" (""id"" VARCHAR(36), ts DATETIME ON" = Err.
Proof. vm_compute. reflexivity. Qed.

Example parse_My_failure_17 : printed My "CREATE TABLE ""users"" (""id"" VARCHAR(36), ts DATETIME ON UPDATE" = Err.
Proof. vm_compute. reflexivity. Qed.

Example parse_My_failure_18 : printed My "CREATE TABLE ""users"" (""id"" VARCHAR(36) DEFAULT (""id"")" = Err.
Proof. vm_compute. reflexivity. Qed.

Example parse_My_failure_19 : printed My "CREATE TABLE ""users"" (""id"" VARCHAR(36) DEFAULT (""id""," = Err.
Proof. vm_compute. reflexivity. Qed.

Example parse_My_failure_20 : printed My "CREATE TABLE ""users"" (""id"" VARCHAR(36) PRIMARY NOT" = Err.
Proof. vm_compute. reflexivity. Qed.

Example parse_My_failure_21 : printed My "CREATE TABLE ""users"" (""id"" VARCHAR(36) REFERENCES NOT" = Err.
Proof. vm_compute. reflexivity. Qed.

Example parse_My_failure_22 : printed My "CREATE TABLE ""users"" (""id"" VARCHAR(36) REFERENCES ""groups"" (NOT" = Err.
Proof. vm_compute. reflexivity. Qed.

Example parse_My_failure_23 : printed My "CREATE TABLE ""users"" (""id"" VARCHAR(36) REFERENCES ""groups"" (id) ON" = Err.
Proof. vm_compute. reflexivity. Qed.

Example parse_My_failure_24 : printed My "CREATE TABLE ""users"" (""id"" VARCHAR(36) REFERENCES ""groups"" (id) ON UPDATE NO" = Err.
Proof. vm_compute. reflexivity. Qed.

Example parse_My_failure_25 : printed My "CREATE TABLE ""users"" (""id"" VARCHAR(36) REFERENCES ""groups"" (id) ON UPDATE NO ACTION ON" = Err.
Proof. vm_compute. reflexivity. Qed.

Example parse_My_failure_26 : printed My "CREATE TABLE ""users"" (""id"" VARCHAR(36) REFERENCES ""groups"" (id) ON UPDATE NO ACTION ON DELETE" = Err.
Proof. vm_compute. reflexivity. Qed.

Example parse_My_failure_27 : printed My "CREATE TABLE ""users"" (""id"" VARCHAR(36) REFERENCES ""groups"" (id) ON UPDATE NO ACTION ON DELETE NO ACTION" = Err.
Proof. vm_compute. reflexivity. Qed.

Example parse_My_failure_28 : printed My "CREATE TABLE ""users"" (""id"" VARCHAR(36) REFERENCES ""groups"" (id) ON UPDATE NO ACTION ON DELETE NO" = Err.
Proof. vm_compute. reflexivity. Qed.

Example parse_My_failure_29 : printed My "CREATE TABLE ""users"" (""id"" VARCHAR(36) CHECK NOT" = Err.
Proof. vm_compute. reflexivity. Qed.

Example parse_My_failure_30 : printed My "CREATE TABLE ""users"" (""id"" VARCHAR(36) CHECK (NOT" = Err.
Proof. vm_compute. reflexivity. Qed.

Example parse_My_failure_31 : printed My "CREATE TABLE ""users"" (""id"" VARCHAR(36), CONSTRAINT NOT" = Err.
Proof. vm_compute. reflexivity. Qed.

Example parse_My_failure_32 : printed My "CREATE TABLE ""users"" (""id"" VARCHAR(36), PRIMARY NOT" = Err.
Proof. vm_compute. reflexivity. Qed.

Example parse_My_failure_33 : printed My "CREATE TABLE ""users"" (""id"" VARCHAR(36), PRIMARY KEY NOT" = Err.
Proof. vm_compute. reflexivity. Qed.

Example parse_My_failure_34 : printed My "CREATE TABLE ""users"" (""id"" VARCHAR(36), PRIMARY KEY (NOT" = Err.
Proof. vm_compute. reflexivity. Qed.

Example parse_My_failure_35 : printed My "CREATE TABLE ""users"" (""id"" VARCHAR(36), FOREIGN NOT" = Err.
Proof. vm_compute. reflexivity. Qed.

Example parse_My_failure_36 : printed My "CREATE TABLE ""users"" (""id"" VARCHAR(36), FOREIGN KEY NOT" = Err.
Proof. vm_compute. reflexivity. Qed.

Example parse_My_failure_37 : printed My "CREATE TABLE ""users"" (""id"" VARCHAR(36), FOREIGN KEY (NOT" = Err.
Proof. vm_compute. reflexivity. Qed.

Example parse_My_failure_38 : printed My "CREATE TABLE ""users"" (""id"" VARCHAR(36), FOREIGN KEY (""group_id"") NOT" = Err.
Proof. vm_compute. reflexivity. Qed.

Example parse_My_failure_39 : printed My "CREATE TABLE ""users"" (""id"" VARCHAR(36), FOREIGN KEY (""group_id"") REFERENCES " = Err.
Proof. vm_compute. reflexivity. Qed.

Example parse_My_failure_40 : printed My "CREATE TABLE ""users"" (""id"" VARCHAR(36), FOREIGN KEY (""group_id"") REFERENCES ""groups"" NOT" = Err.
Proof. vm_compute. reflexivity. Qed.

Example parse_My_failure_41 : printed My "CREATE TABLE ""users"" (""id"" VARCHAR(36), FOREIGN KEY (""group_id"") REFERENCES ""groups"" (""id"")" = Err.
Proof. vm_compute. reflexivity. Qed.

Example parse_My_failure_42 : printed My "CREATE TABLE ""users"" (""id"" VARCHAR(36), FOREIGN KEY (""group_id"") REFERENCES ""groups"" (""id"") ON" = Err.
Proof. vm_compute. reflexivity. Qed.

Example parse_My_failure_43 : printed My "CREATE TABLE ""users"" (""id"" VARCHAR(36), FOREIGN KEY (""group_id"") REFERENCES ""groups"" (""id"") ON DELETE NO ACTION" = Err.
Proof. vm_compute. reflexivity. Qed.

Example parse_My_failure_44 : printed My "CREATE TABLE ""users"" (""id"" VARCHAR(36), FOREIGN KEY (""group_id"") REFERENCES ""groups"" (""id"") ON DELETE NO ACTION ON UPDATE" = Err.
Proof. vm_compute. reflexivity. Qed.

Example parse_My_failure_45 : printed My "CREATE TABLE ""users"" (""id"" VARCHAR(36), FOREIGN KEY (""group_id"") REFERENCES ""groups"" (""id"") ON DELETE NO ACTION ON UPDATE NO ACTION" = Err.
Proof. vm_compute. reflexivity. Qed.

Example parse_My_failure_46 : printed My "CREATE TABLE ""users"" (""id"" VARCHAR(36), UNIQUE NOT" = Err.
Proof. vm_compute. reflexivity. Qed.

Example parse_My_failure_47 : printed My "CREATE TABLE ""users"" (""id"" VARCHAR(36), UNIQUE INDEX users_idx_name NOT" = Err.
Proof. vm_compute. reflexivity. Qed.

Example parse_My_failure_48 : printed My "CREATE TABLE ""users"" (""id"" VARCHAR(36), UNIQUE INDEX users_idx_name (NOT" = Err.
Proof. vm_compute. reflexivity. Qed.

Example parse_My_failure_49 : printed My "CREATE TABLE ""users"" (""id"" VARCHAR(36), UNIQUE INDEX NOT" = Err.
Proof. vm_compute. reflexivity. Qed.

Example parse_My_failure_50 : printed My "CREATE TABLE ""users"" (""id"" VARCHAR(36), name TEXT, UNIQUE (""id"", name)" = Err.
Proof. vm_compute. reflexivity. Qed.

Example parse_My_failure_51 : printed My "CREATE TABLE ""users"" (""id"" VARCHAR(36), name TEXT, CHECK INVALID" = Err.
Proof. vm_compute. reflexivity. Qed.

Example parse_My_failure_52 : printed My "CREATE TABLE ""users"" (""id"" VARCHAR(36), name TEXT, CHECK (INVALID" = Err.
Proof. vm_compute. reflexivity. Qed.

Example parse_My_failure_53 : printed My "CREATE TABLE ""users"" (""id"" VARCHAR(36), name TEXT, CHECK (""id"" NOT NULL)" = Err.
Proof. vm_compute. reflexivity. Qed.

Example parse_My_failure_54 : printed My "CREATE TABLE ""users"" (""id"" VARCHAR(36), name TEXT, UNIQUE KEY users_idx_on_id_name (""id"", name)) ENGINE" = Err.
Proof. vm_compute. reflexivity. Qed.

Example parse_My_failure_55 : printed My "CREATE TABLE ""users"" (""id"" VARCHAR(36), name TEXT, UNIQUE KEY users_idx_on_id_name (""id"", name)) ENGINE=" = Err.
Proof. vm_compute. reflexivity. Qed.

Example parse_My_failure_56 : printed My "CREATE TABLE ""users"" (""id"" VARCHAR(36), name TEXT, UNIQUE KEY users_idx_on_id_name (""id"", name)) AUTO_INCREMENT" = Err.
Proof. vm_compute. reflexivity. Qed.

Example parse_My_failure_57 : printed My "CREATE TABLE ""users"" (""id"" VARCHAR(36), name TEXT, UNIQUE KEY users_idx_on_id_name (""id"", name)) AUTO_INCREMENT=" = Err.
Proof. vm_compute. reflexivity. Qed.

Example parse_My_failure_58 : printed My "CREATE TABLE ""users"" (""id"" VARCHAR(36), name TEXT, UNIQUE KEY users_idx_on_id_name (""id"", name)) DEFAULT=" = Err.
Proof. vm_compute. reflexivity. Qed.

Example parse_My_failure_59 : printed My "CREATE TABLE ""users"" (""id"" VARCHAR(36), name TEXT, UNIQUE KEY users_idx_on_id_name (""id"", name)) DEFAULT CHARSET" = Err.
Proof. vm_compute. reflexivity. Qed.

Example parse_My_failure_60 : printed My "CREATE TABLE ""users"" (""id"" VARCHAR(36), name TEXT, UNIQUE KEY users_idx_on_id_name (""id"", name)) DEFAULT CHARSET=" = Err.
Proof. vm_compute. reflexivity. Qed.

Example parse_My_failure_61 : printed My "CREATE TABLE ""users"" (""id"" VARCHAR(36), name TEXT, UNIQUE KEY users_idx_on_id_name (""id"", name)) COLLATE" = Err.
Proof. vm_compute. reflexivity. Qed.

Example parse_My_failure_62 : printed My "CREATE TABLE ""users"" (""id"" VARCHAR(36), name TEXT, UNIQUE KEY users_idx_on_id_name (""id"", name)) COLLATE=" = Err.
Proof. vm_compute. reflexivity. Qed.

Example parse_My_failure_63 : printed My "CREATE TABLE ""users"" (""id"" VARCHAR(36), name TEXT, UNIQUE KEY users_idx_on_id_name (""id"", name)) COMMENT" = Err.
Proof. vm_compute. reflexivity. Qed.

Example parse_My_failure_64 : printed My "CREATE TABLE ""users"" (""id"" VARCHAR(36), name TEXT, UNIQUE KEY users_idx_on_id_name (""id"", name)) COMMENT=" = Err.
Proof. vm_compute. reflexivity. Qed.

Example parse_My_failure_65 : printed My "CREATE INDEX NOT" = Err.
Proof. vm_compute. reflexivity. Qed.

Example parse_My_failure_66 : printed My "CREATE INDEX IF;" = Err.
Proof. vm_compute. reflexivity. Qed.

Example parse_My_failure_67 : printed My "CREATE INDEX IF NOT;" = Err.
Proof. vm_compute. reflexivity. Qed.

Example parse_My_failure_68 : printed My "CREATE INDEX IF NOT EXISTS;" = Err.
Proof. vm_compute. reflexivity. Qed.

Example parse_My_failure_69 : printed My "CREATE INDEX users_idx_username NOT" = Err.
Proof. vm_compute. reflexivity. Qed.

Example parse_My_failure_70 : printed My "CREATE INDEX users_idx_username ON NOT" = Err.
Proof. vm_compute. reflexivity. Qed.

Example parse_My_failure_71 : printed My "CREATE INDEX users_idx_username ON users NOT" = Err.
Proof. vm_compute. reflexivity. Qed.

Example parse_My_failure_72 : printed My "CREATE INDEX users_idx_username ON users USING NOT" = Err.
Proof. vm_compute. reflexivity. Qed.

Example parse_My_failure_73 : printed My "CREATE INDEX users_idx_username ON users USING btree NOT" = Err.
Proof. vm_compute. reflexivity. Qed.

Example parse_My_failure_74 : printed My "CREATE INDEX users_idx_username ON users USING btree (NOT)" = Err.
Proof. vm_compute. reflexivity. Qed.

Example parse_My_success_1 : printed My "CREATE TABLE `groups` (`group_id` VARCHAR(36) NOT NULL PRIMARY KEY, description TEXT CHARACTER SET utf8mbb4 COMMENT '備考') ENGINE=InnoDB DEFAULT CHARSET=utf8mb4 COLLATE=utf8mb4_0900_ai_ci; CREATE TABLE `users` (user_id VARCHAR(36) NOT NULL, group_id VARCHAR(36) NOT NULL REFERENCES `groups` (`group_id`), `name` VARCHAR(255) COLLATE utf8mb4_bin NOT NULL UNIQUE, `age` INT DEFAULT 0 CHECK (`age` >= 0), birthdate DATE, country char(3), description LONGTEXT CHARACTER SET utf8mbb4 COMMENT '備考', created_at DATETIME NOT NULL DEFAULT CURRENT_TIMESTAMP, updated_at DATETIME NOT NULL DEFAULT CURRENT_TIMESTAMP ON UPDATE CURRENT_TIMESTAMP, PRIMARY KEY (`user_id`)) ENGINE=InnoDB AUTO_INCREMENT=2 DEFAULT CHARSET=utf8mb4 COLLATE=utf8mb4_0900_ai_ci COMMENT='user 🙆‍';" = Ok "CREATE TABLE `groups` (
    `group_id` VARCHAR(36) NOT NULL,
    description TEXT CHARACTER SET utf8mbb4 NULL COMMENT '備考',
    PRIMARY KEY (`group_id`)
) ENGINE=InnoDB DEFAULT CHARSET=utf8mb4 COLLATE=utf8mb4_0900_ai_ci;
CREATE TABLE `users` (
    user_id VARCHAR(36) NOT NULL,
    group_id VARCHAR(36) NOT NULL,
    `name` VARCHAR(255) COLLATE utf8mb4_bin NOT NULL,
    `age` INT NULL DEFAULT 0,
    birthdate DATE NULL,
    country char(3) NULL,
    description LONGTEXT CHARACTER SET utf8mbb4 NULL COMMENT '備考',
    created_at DATETIME NOT NULL DEFAULT CURRENT_TIMESTAMP,
    updated_at DATETIME NOT NULL DEFAULT CURRENT_TIMESTAMP ON UPDATE CURRENT_TIMESTAMP,
    PRIMARY KEY (`user_id`),
    CONSTRAINT users_group_id_fkey FOREIGN KEY (group_id) REFERENCES `groups` (`group_id`),
    UNIQUE KEY users_unique_name (`name`),
    CONSTRAINT users_age_check CHECK (`age` >= 0)
) ENGINE=InnoDB AUTO_INCREMENT=2 DEFAULT CHARSET=utf8mb4 COLLATE=utf8mb4_0900_ai_ci COMMENT='user 🙆‍';
".
Proof. vm_compute. reflexivity. Qed.

Example parse_My_success_2 : printed My "-- table: complex_defaults
CREATE TABLE IF NOT EXISTS complex_defaults (
    -- id is the primary key.
    id INT NOT NULL PRIMARY KEY,
    name VARCHAR(255) NOT NULL,
    age INT DEFAULT 25,
    created_at TIMESTAMP DEFAULT CURRENT_TIMESTAMP,
    status ENUM('Active', 'Inactive') DEFAULT 'Active',
    salary DECIMAL(10, 2) DEFAULT (10000+1),
    random_number INTEGER DEFAULT (FLOOR(RAND() * 100)),
    notes VARCHAR(1024) DEFAULT 'This is a note for ',
    is_admin BOOLEAN DEFAULT false,
    KEY complex_defaults_idx_on_name (name),
	CONSTRAINT users_age_check CHECK ((age >= 0))
);
" = Ok "CREATE TABLE IF NOT EXISTS complex_defaults (
    id INT NOT NULL,
    name VARCHAR(255) NOT NULL,
    age INT NULL DEFAULT 25,
    created_at TIMESTAMP NULL DEFAULT CURRENT_TIMESTAMP,
    status ENUM('Active', 'Inactive') NULL DEFAULT 'Active',
    salary DECIMAL(10, 2) NULL DEFAULT (10000 + 1),
    random_number INTEGER NULL DEFAULT (FLOOR(RAND() * 100)),
    notes VARCHAR(1024) NULL DEFAULT 'This is a note for ',
    is_admin TINYINT(1) NULL DEFAULT false,
    PRIMARY KEY (id),
    KEY complex_defaults_idx_on_name (name),
    CONSTRAINT users_age_check CHECK ((age >= 0))
);
".
Proof. vm_compute. reflexivity. Qed.

Example parse_My_success_3 : printed My "CREATE TABLE IF NOT EXISTS public.users (
    user_id VARCHAR(36) NOT NULL,
    username VARCHAR(256) NOT NULL,
    is_verified BOOLEAN NOT NULL DEFAULT false,
    created_at DATETIME NOT NULL DEFAULT CURRENT_TIMESTAMP,
    updated_at DATETIME NOT NULL DEFAULT CURRENT_TIMESTAMP,
    CONSTRAINT users_pkey PRIMARY KEY (user_id),
    INDEX users_idx_by_username (username DESC)
);
" = Ok "CREATE TABLE IF NOT EXISTS public.users (
    user_id VARCHAR(36) NOT NULL,
    username VARCHAR(256) NOT NULL,
    is_verified TINYINT(1) NOT NULL DEFAULT false,
    created_at DATETIME NOT NULL DEFAULT CURRENT_TIMESTAMP,
    updated_at DATETIME NOT NULL DEFAULT CURRENT_TIMESTAMP,
    PRIMARY KEY (user_id),
    KEY users_idx_by_username (username DESC)
);
".
Proof. vm_compute. reflexivity. Qed.

Example parse_My_success_4 : printed My ";" = Ok "".
Proof. vm_compute. reflexivity. Qed.

Example parse_Sp_failure_1 : printed Sp ")invalid" = Err.
Proof. vm_compute. reflexivity. Qed.

Example parse_Sp_failure_2 : printed Sp "CREATE INVALID;" = Err.
Proof. vm_compute. reflexivity. Qed.

Example parse_Sp_failure_3 : printed Sp "CREATE TABLE;" = Err.
Proof. vm_compute. reflexivity. Qed.

Example parse_Sp_failure_4 : printed Sp "CREATE TABLE IF;" = Err.
Proof. vm_compute. reflexivity. Qed.

Example parse_Sp_failure_5 : printed Sp "CREATE TABLE IF NOT;" = Err.
Proof. vm_compute. reflexivity. Qed.

Example parse_Sp_failure_6 : printed Sp "CREATE TABLE ""users"";" = Err.
Proof. vm_compute. reflexivity. Qed.

Example parse_Sp_failure_7 : printed Sp "CREATE TABLE ""users"" (""id"";" = Err.
Proof. vm_compute. reflexivity. Qed.

Example parse_Sp_failure_8 : printed Sp "CREATE TABLE ""users"" (""id"" STRING(36);" = Err.
Proof. vm_compute. reflexivity. Qed.

Example parse_Sp_failure_9 : printed Sp "CREATE TABLE ""users"" (""id"" STRING(36), enabled BOOL DEFAULT (FALSE);" = Err.
Proof. vm_compute. reflexivity. Qed.

Example parse_Sp_failure_10 : printed Sp "CREATE TABLE ""users"" (""id"" STRING(36), enabled BOOL DEFAULT (TRUE AND FALSE);" = Err.
Proof. vm_compute. reflexivity. Qed.

Example parse_Sp_failure_11 : printed Sp "CREATE TABLE ""users"" (""id"" STRING(36), created_at TIMESTAMP OPTIONS (allow_commit_timestamp = true;" = Err.
Proof. vm_compute. reflexivity. Qed.

Example parse_Sp_failure_12 : printed Sp "CREATE TABLE ""users"" (""id"" STRING(36), CONSTRAINT ""invalid"" NOT;" = Err.
Proof. vm_compute. reflexivity. Qed.

Example parse_Sp_failure_13 : printed Sp "CREATE TABLE ""users"" (""id"" STRING(36))(;" = Err.
Proof. vm_compute. reflexivity. Qed.

Example parse_Sp_failure_14 : printed Sp "CREATE TABLE ""users"" (""id"" TIMESTAMP CREATE" = Err.
Proof. vm_compute. reflexivity. Qed.

Example parse_Sp_failure_15 : printed Sp "CREATE TABLE ""users"" (""id"" VARYING();" = Err.
Proof. vm_compute. reflexivity. Qed.

Example parse_Sp_failure_16 : printed Sp "CREATE TABLE ""users"" (""id"" STRING(36) NULL NOT;" = Err.
Proof. vm_compute. reflexivity. Qed.

Example parse_Sp_failure_17 : printed Sp "CREATE TABLE ""users"" (""id"" STRING(36) DEFAULT (""id"")" = Err.
Proof. vm_compute. reflexivity. Qed.

Example parse_Sp_failure_18 : printed Sp "CREATE TABLE ""users"" (""id"" STRING(36) DEFAULT (""id""," = Err.
Proof. vm_compute. reflexivity. Qed.

Example parse_Sp_failure_19 : printed Sp "CREATE TABLE ""users"" (""id"" STRING(36) PRIMARY NOT" = Err.
Proof. vm_compute. reflexivity. Qed.

Example parse_Sp_failure_20 : printed Sp "CREATE TABLE ""users"" (""id"" STRING(36) REFERENCES NOT" = Err.
Proof. vm_compute. reflexivity. Qed.

Example parse_Sp_failure_21 : printed Sp "CREATE TABLE ""users"" (""id"" STRING(36) REFERENCES ""groups"" (NOT" = Err.
Proof. vm_compute. reflexivity. Qed.

Example parse_Sp_failure_22 : printed Sp "CREATE TABLE ""users"" (""id"" STRING(36) CHECK NOT" = Err.
Proof. vm_compute. reflexivity. Qed.

Example parse_Sp_failure_23 : printed Sp "CREATE TABLE ""users"" (""id"" STRING(36) CHECK (NOT" = Err.
Proof. vm_compute. reflexivity. Qed.

Example parse_Sp_failure_24 : printed Sp "CREATE TABLE ""users"" (""id"" STRING(36), CONSTRAINT NOT" = Err.
Proof. vm_compute. reflexivity. Qed.

Example parse_Sp_failure_25 : printed Sp "CREATE TABLE ""users"" (""id"" STRING(36), CONSTRAINT constraint_name CHECK" = Err.
Proof. vm_compute. reflexivity. Qed.

Example parse_Sp_failure_26 : printed Sp "CREATE TABLE ""users"" (""id"" STRING(36), CONSTRAINT constraint_name CHECK (" = Err.
Proof. vm_compute. reflexivity. Qed.

Example parse_Sp_failure_27 : printed Sp "CREATE TABLE ""users"" (""id"" STRING(36)) PRIMARY NOT" = Err.
Proof. vm_compute. reflexivity. Qed.

Example parse_Sp_failure_28 : printed Sp "CREATE TABLE ""users"" (""id"" STRING(36)) PRIMARY KEY NOT" = Err.
Proof. vm_compute. reflexivity. Qed.

Example parse_Sp_failure_29 : printed Sp "CREATE TABLE ""users"" (""id"" STRING(36)) PRIMARY KEY (NOT" = Err.
Proof. vm_compute. reflexivity. Qed.

Example parse_Sp_failure_30 : printed Sp "CREATE TABLE ""users"" (""id"" STRING(36)) PRIMARY KEY (id" = Err.
Proof. vm_compute. reflexivity. Qed.

Example parse_Sp_failure_31 : printed Sp "CREATE TABLE ""users"" (""id"" STRING(36)) PRIMARY KEY (id), INTERLEAVE;" = Err.
Proof. vm_compute. reflexivity. Qed.

Example parse_Sp_failure_32 : printed Sp "CREATE TABLE ""users"" (""id"" STRING(36)) PRIMARY KEY (id), INTERLEAVE IN;" = Err.
Proof. vm_compute. reflexivity. Qed.

Example parse_Sp_failure_33 : printed Sp "CREATE TABLE ""users"" (""id"" STRING(36)) PRIMARY KEY (id), INTERLEAVE IN PARENT;" = Err.
Proof. vm_compute. reflexivity. Qed.

Example parse_Sp_failure_34 : printed Sp "CREATE TABLE ""users"" (""id"" STRING(36)) PRIMARY KEY (id), INTERLEAVE IN PARENT table_name ON;" = Err.
Proof. vm_compute. reflexivity. Qed.

Example parse_Sp_failure_35 : printed Sp "CREATE TABLE ""users"" (""id"" STRING(36)) PRIMARY KEY (id), INTERLEAVE IN PARENT table_name ON DELETE;" = Err.
Proof. vm_compute. reflexivity. Qed.

Example parse_Sp_failure_36 : printed Sp "CREATE TABLE ""users"" (""id"" STRING(36)) PRIMARY KEY (id), INTERLEAVE IN PARENT table_name ON DELETE CASCADE NOT;" = Err.
Proof. vm_compute. reflexivity. Qed.

Example parse_Sp_failure_37 : printed Sp "CREATE TABLE ""users"" (""id"" STRING(36)) PRIMARY KEY (id), INTERLEAVE IN PARENT table_name ON DELETE NO;" = Err.
Proof. vm_compute. reflexivity. Qed.

Example parse_Sp_failure_38 : printed Sp "CREATE TABLE ""users"" (""id"" STRING(36)) PRIMARY KEY (id), ROW;" = Err.
Proof. vm_compute. reflexivity. Qed.

Example parse_Sp_failure_39 : printed Sp "CREATE TABLE ""users"" (""id"" STRING(36)) PRIMARY KEY (id), ROW DELETION;" = Err.
Proof. vm_compute. reflexivity. Qed.

Example parse_Sp_failure_40 : printed Sp "CREATE TABLE ""users"" (""id"" STRING(36)) PRIMARY KEY (id), ROW DELETION POLICY;" = Err.
Proof. vm_compute. reflexivity. Qed.

Example parse_Sp_failure_41 : printed Sp "CREATE TABLE ""users"" (""id"" STRING(36)) PRIMARY KEY (id), ROW DELETION POLICY (;" = Err.
Proof. vm_compute. reflexivity. Qed.

Example parse_Sp_failure_42 : printed Sp "CREATE TABLE ""users"" (""id"" STRING(36)) PRIMARY KEY (id), ROW DELETION POLICY (;" = Err.
Proof. vm_compute. reflexivity. Qed.

Example parse_Sp_failure_43 : printed Sp "CREATE TABLE ""users"" (""id"" STRING(36)) PRIMARY KEY (id), ROW DELETION POLICY (OLDER_THAN;" = Err.
Proof. vm_compute. reflexivity. Qed.

Example parse_Sp_failure_44 : printed Sp "CREATE TABLE ""users"" (""id"" STRING(36)) PRIMARY KEY (id), ROW DELETION POLICY (OLDER_THAN(;" = Err.
Proof. vm_compute. reflexivity. Qed.

Example parse_Sp_failure_45 : printed Sp "CREATE TABLE ""users"" (""id"" STRING(36)) PRIMARY KEY (id), ROW DELETION POLICY (OLDER_THAN(ExpiredDate;" = Err.
Proof. vm_compute. reflexivity. Qed.

Example parse_Sp_failure_46 : printed Sp "CREATE TABLE ""users"" (""id"" STRING(36)) PRIMARY KEY (id), ROW DELETION POLICY (OLDER_THAN(ExpiredDate,;" = Err.
Proof. vm_compute. reflexivity. Qed.

Example parse_Sp_failure_47 : printed Sp "CREATE TABLE ""users"" (""id"" STRING(36)) PRIMARY KEY (id), ROW DELETION POLICY (OLDER_THAN(ExpiredDate, INTERVAL;" = Err.
Proof. vm_compute. reflexivity. Qed.

Example parse_Sp_failure_48 : printed Sp "CREATE TABLE ""users"" (""id"" STRING(36)) PRIMARY KEY (id), ROW DELETION POLICY (OLDER_THAN(ExpiredDate, INTERVAL 0;" = Err.
Proof. vm_compute. reflexivity. Qed.

Example parse_Sp_failure_49 : printed Sp "CREATE TABLE ""users"" (""id"" STRING(36)) PRIMARY KEY (id), ROW DELETION POLICY (OLDER_THAN(ExpiredDate, INTERVAL 0 DAY;" = Err.
Proof. vm_compute. reflexivity. Qed.

Example parse_Sp_failure_50 : printed Sp "CREATE TABLE ""users"" (""id"" STRING(36)) PRIMARY KEY (id), ROW DELETION POLICY (OLDER_THAN(ExpiredDate, INTERVAL 0 DAY);" = Err.
Proof. vm_compute. reflexivity. Qed.

Example parse_Sp_failure_51 : printed Sp "CREATE TABLE ""users"" (""id"" STRING(36), FOREIGN NOT" = Err.
Proof. vm_compute. reflexivity. Qed.

Example parse_Sp_failure_52 : printed Sp "CREATE TABLE ""users"" (""id"" STRING(36), FOREIGN KEY NOT" = Err.
Proof. vm_compute. reflexivity. Qed.

Example parse_Sp_failure_53 : printed Sp "CREATE TABLE ""users"" (""id"" STRING(36), FOREIGN KEY (NOT" = Err.
Proof. vm_compute. reflexivity. Qed.

Example parse_Sp_failure_54 : printed Sp "CREATE TABLE ""users"" (""id"" STRING(36), FOREIGN KEY (""group_id"") NOT" = Err.
Proof. vm_compute. reflexivity. Qed.

Example parse_Sp_failure_55 : printed Sp "CREATE TABLE ""users"" (""id"" STRING(36), FOREIGN KEY (""group_id"") REFERENCES " = Err.
Proof. vm_compute. reflexivity. Qed.

Example parse_Sp_failure_56 : printed Sp "CREATE TABLE ""users"" (""id"" STRING(36), FOREIGN KEY (""group_id"") REFERENCES ""groups"" NOT" = Err.
Proof. vm_compute. reflexivity. Qed.

Example parse_Sp_failure_57 : printed Sp "CREATE TABLE ""users"" (""id"" STRING(36), FOREIGN KEY (""group_id"") REFERENCES ""groups"" (""id"")" = Err.
Proof. vm_compute. reflexivity. Qed.

Example parse_Sp_failure_58 : printed Sp "CREATE TABLE ""users"" (""id"" STRING(36), UNIQUE NOT" = Err.
Proof. vm_compute. reflexivity. Qed.

Example parse_Sp_failure_59 : printed Sp "CREATE TABLE ""users"" (""id"" STRING(36), UNIQUE INDEX users_idx_name NOT" = Err.
Proof. vm_compute. reflexivity. Qed.

Example parse_Sp_failure_60 : printed Sp "CREATE TABLE ""users"" (""id"" STRING(36), UNIQUE INDEX users_idx_name (NOT" = Err.
Proof. vm_compute. reflexivity. Qed.

Example parse_Sp_failure_61 : printed Sp "CREATE TABLE ""users"" (""id"" STRING(36), UNIQUE INDEX NOT" = Err.
Proof. vm_compute. reflexivity. Qed.

Example parse_Sp_failure_62 : printed Sp "CREATE TABLE ""users"" (""id"" STRING(36), name STRING, UNIQUE (""id"", name)" = Err.
Proof. vm_compute. reflexivity. Qed.

Example parse_Sp_failure_63 : printed Sp "CREATE INDEX NOT" = Err.
Proof. vm_compute. reflexivity. Qed.

Example parse_Sp_failure_64 : printed Sp "CREATE INDEX IF;" = Err.
Proof. vm_compute. reflexivity. Qed.

Example parse_Sp_failure_65 : printed Sp "CREATE INDEX IF NOT;" = Err.
Proof. vm_compute. reflexivity. Qed.

Example parse_Sp_failure_66 : printed Sp "CREATE INDEX IF NOT EXISTS;" = Err.
Proof. vm_compute. reflexivity. Qed.

Example parse_Sp_failure_67 : printed Sp "CREATE INDEX users_idx_username NOT" = Err.
Proof. vm_compute. reflexivity. Qed.

Example parse_Sp_failure_68 : printed Sp "CREATE INDEX users_idx_username ON NOT" = Err.
Proof. vm_compute. reflexivity. Qed.

Example parse_Sp_failure_69 : printed Sp "CREATE INDEX users_idx_username ON users NOT" = Err.
Proof. vm_compute. reflexivity. Qed.

Example parse_Sp_failure_70 : printed Sp "CREATE INDEX users_idx_username ON users USING NOT" = Err.
Proof. vm_compute. reflexivity. Qed.

Example parse_Sp_failure_71 : printed Sp "CREATE INDEX users_idx_username ON users USING btree NOT" = Err.
Proof. vm_compute. reflexivity. Qed.

Example parse_Sp_failure_72 : printed Sp "CREATE INDEX users_idx_username ON users USING btree (NOT)" = Err.
Proof. vm_compute. reflexivity. Qed.

Example parse_Sp_success_1 : printed Sp "CREATE TABLE ""groups"" (""id"" STRING(36) NOT NULL, description STRING) PRIMARY KEY (""id""); CREATE TABLE ""users"" (id STRING(36) NOT NULL, group_id STRING(36) NOT NULL, ""name"" STRING(255) NOT NULL, ""age"" INT64 DEFAULT 0, ExpiredDate TIMESTAMP, description STRING, CONSTRAINT users_age_check CHECK (""age"" >= 0), CONSTRAINT users_group_id_fkey FOREIGN KEY (group_id) REFERENCES ""groups"" (""id"")) PRIMARY KEY (""id""), INTERLEAVE IN PARENT names ON DELETE NO ACTION, ROW DELETION POLICY (OLDER_THAN(ExpiredDate, INTERVAL 0 DAY));" = Ok "CREATE TABLE ""groups"" (
    ""id"" STRING(36) NOT NULL,
    description STRING
) PRIMARY KEY (""id"");
CREATE TABLE ""users"" (
    id STRING(36) NOT NULL,
    group_id STRING(36) NOT NULL,
    ""name"" STRING(255) NOT NULL,
    ""age"" INT64 DEFAULT 0,
    ExpiredDate TIMESTAMP,
    description STRING,
    CONSTRAINT users_age_check CHECK (""age"" >= 0),
    CONSTRAINT users_group_id_fkey FOREIGN KEY (group_id) REFERENCES ""groups"" (""id"")
) PRIMARY KEY (""id""),
INTERLEAVE IN PARENT names ON DELETE NO ACTION,
ROW DELETION POLICY (OLDER_THAN(ExpiredDate, INTERVAL 0 DAY));
".
Proof. vm_compute. reflexivity. Qed.

Example parse_Sp_success_2 : printed Sp "-- table: complex_defaults
CREATE TABLE IF NOT EXISTS complex_defaults (
    -- id is the primary key.
    id INT64,
    created_at TIMESTAMP DEFAULT (CURRENT_TIMESTAMP()),
    updated_at TIMESTAMP DEFAULT (CURRENT_TIMESTAMP()),
    unique_code STRING DEFAULT (GENERATE_UUID()),
    status STRING DEFAULT ('pending'),
    random_number INT64 DEFAULT (FLOOR(RANDOM() * 100)),
    json_data JSON DEFAULT ('{}'),
    calculated_value INT64 DEFAULT (SELECT COUNT(*) FROM another_table)
) PRIMARY KEY (id);
" = Ok "CREATE TABLE IF NOT EXISTS complex_defaults (
    id INT64,
    created_at TIMESTAMP DEFAULT (CURRENT_TIMESTAMP()),
    updated_at TIMESTAMP DEFAULT (CURRENT_TIMESTAMP()),
    unique_code STRING DEFAULT (GENERATE_UUID()),
    status STRING DEFAULT ('pending'),
    random_number INT64 DEFAULT (FLOOR(RANDOM() * 100)),
    json_data JSON DEFAULT ('{}'),
    calculated_value INT64 DEFAULT (SELECT COUNT(*) FROM another_table)
) PRIMARY KEY (id);
".
Proof. vm_compute. reflexivity. Qed.
