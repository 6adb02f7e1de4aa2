.*.cache
*.cache
